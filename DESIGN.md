# Formal model of libMVRgdtf: design

All Coq files live in `rocq/theories`. For each area there are three kinds of file:

* `XxxModel.v`  - Gallina functions that follow the C++ function by function, each with a
  comment citing file and lines. Undefined behaviour, exceptions and non-termination are
  explicit outcomes of the model (`UB`, `Throw`, fuel exhausted), never assumed away.
* `XxxProofs.v` - lemmas.
* `XxxProps.v`  - only the property theorems (`Cnn_...`), the small specifications they are
  stated against, examples showing the hypotheses are satisfiable, and `Print Assumptions`.

Naming: `Cnn_name` = holds for all inputs as stated; `Cnn_name_partial` = proved on a stated
part of the domain; `Cnn_name_refuted` = the property as a user would expect it is false of
the code, with a concrete witness.

## Trusted base

* Coq 8.16.1 kernel (no `native_compute`; `vm_compute` only as a kernel conversion strategy).
* `Print Assumptions` of every property theorem is printed in the `*Props.v` files. Expected: closed
  under the global context, except where a standard-library axiom is listed in the table at the end.
* The correspondence between the Gallina definitions and the C++ text (by reading; cited per definition).
* Platform: 64-bit little-endian Linux build (size_t = 64 bit, TXChar = 16-bit unit).

## Plan per property

| id | model | proof approach |
|----|-------|----------------|
| C01-C02 | `PacketModel`: header fields as N, `enc_header`/`dec_header` on byte lists | big-endian digit lemmas, for all field values below 2^32 / 2^64 |
| C03-C05 | `PacketModel`: buffer = (alloc, size, bytes) with explicit out-of-bounds outcome; ops GrowTo, SetBody, DecodeHeader, body read | invariants over op lists; refutations with concrete lengths |
| C06-C08 | `MessageModel`: message records, payload building, decoder as a state-passing function with outcome return/exception/undefined | via C68 and C44; predicate transformers over the outcome, list induction for station and commit lists |
| C09-C12, C69, C70 | `ServiceModel`: group list state machine, recipient filter, name filter, TXT codec | invariants over event lists, list induction, non-termination by a loop invariant |
| C13, C71, C72 | `SessionModel`: session as a transition system over I/O completions, client read, heap of file buffers | verdict on the byte stream, unique and stable under more bytes; invariant over all event lists |
| C14, C73 | `WaitModel`: interleaving of caller and worker; timer queue | invariants over all step lists; stuck and busy states as refutations |
| C15-C19, C21-C22 | `ZipModel`: archive bytes, AddFile/GetFile/GetNextFile/RemoveFile on the byte buffer; compression is a pair of functions (section variables) with `inflate (deflate x) = x` | representation invariant "bytes = locals ++ central directory ++ end record" preserved by AddFile; backward signature scan; induction over entries |
| C20 | `PathModel`: path normalisation of entry names | refutation + characterisation |
| C23-C26 | `ShaModel`: the unrolled block function as written; `ShaSpec`: FIPS 180-4 | round rotation equivalence, padding lemma, streaming invariant |
| C27-C30 | `UuidModel` | digit lemmas |
| C31-C37 | `StringModel` (UTF-16 unit lists), `UtfModel` | induction on lists |
| C38, C65 | `EnumModel` (23 name tables taken from the if-chains) | table lemmas by case analysis, for all texts |
| C40-C45, C67 | `NumModel`, `ConvModel` | decimal/hex print-parse lemmas; list splitting by induction |
| C39 | `NumModel` (doubles as 53-bit rounded fractions), `ConvModel` | relative error bounds over Q, one linear-arithmetic proof per pair of resolutions |
| C58-C60 | `ZipModel`, `ZipBufModel` | see C15 |
| C61-C64 | `StringModel`, `UuidModel` | lexicographic order lemmas, list induction |
| C68 | `JsonModel`: lexer, parser and serializer of the bundled JSON library on byte lists | token lemmas, parser-stack induction over documents, UTF-8 automaton equals the UTF-8 specification |
| C46-C48, C51 | `DmxModel`: channel resolution, function ranges, channel set linking on reading and gap filling on writing; std::sort is a parameter with its contract as hypothesis | list induction, sortedness invariants, partition predicate |
| C49, C50 | `GeoModel`: geometry store by id with children, links and breaks; stack traversals with fuel | reachability, sorted duplicate-free insertion |
| C52-C54, C74 | `LookupModel`, `CheckModel` | first-match map invariants for every hash; refutations with witnesses |
| C66 | `FloatModel`: finite doubles as multiples of 2^-1074, std::to_string and atof with either decimal point | half-even rounding bounds, binade grids |
| C75, C76 | `VecModel`: colours, vectors, matrices on top of `FloatModel` | split/join lemma for the separator loop; inversion of the readers |
| C55 | `AttrModel`: node attributes in a hash set with explicit buckets | set contents as a predicate, for every hash function |
| C56, C57 | `PathModel`: name sanitising and folder extraction on UTF-16 lists | replacement lemmas, exact condition for leftovers |
| C77, C78, C79 | `XmlModel`: tinyxml2 reader and printer on bytes, node access; `XmlSpec` states trees, line ends, references as relations | nested induction over trees, reader steps on printed pieces; inversion of the reader for every text; `XmlMore` adds layout, byte order marks and the order of declarations and children |
| C80-C86 | `MdnsModel`: DNS names, records, questions and answers of mdns.h on bytes, both callbacks and the merging of results of mdns.cpp; `MdnsSpec` states names and records after RFC 1035 | every name in its place in a message as a relation; the answer as a list of records; the way of a station end to end through `ServiceModel`; sockets are not modelled: a received message is the buffer and a size, an address text is a parameter |
| C87-C92 | `ObjModel`: every GDTF object class as tables (members, attributes written and read, required and optional attributes, children) with generic writing and reading; `ObjSpec` states values, members and trees that can be written and when two are the same | per-conversion round trip, one induction over the attribute tables with side conditions computed for every class, tree induction; `ObjCheck` decides the hypotheses for examples |
| C93-C100 | `SceneModel`: every class of the MVR scene as tables, the document, resolving of references, DMX addresses; `SceneSpec` states scenes that can be written, references that can be resolved, the walk through a scene | as for the GDTF objects; references as places in the walk; `SceneCheck` decides the hypotheses for examples; the hash map of symbol definitions is any test of keys; `SceneFile` takes the document through the printer and parser of C77 |
| C101, C102 | `LinkModel`: `ResolveAllReferences` over the objects of C87 (geometries, channels, functions, mode masters, relations, macros, personalities, attributes, wheel slots) with the lookups of C74; `LinkSpec` states what a reference means by class, scope and text | pointers are places in the tree; reports are events; names generated from references are computed each time, as they are first asked for after the reference is set; aborting (`CheckAbort`) is not modelled; `LinkCheck` decides the hypotheses for examples |
| C103, C104 | `EditModel`: the names of channels, logical channels and functions (`GetName`, `GetNodeReference`, `AutoGenerateNames`) under any sequence of calls that change a mode or ask for a reference; what the file is read as (`as_read`) is looked up with C52 | one mode; geometries and attributes are numbers with a name; only the members names depend on |
| C105 | `UnpackProps`: where the entries of an archive go, on the model of C20 | ordinary names; refutations for escapes and flattened folders |
| C106, C107 | `KeepModel`, `KeepProps`: what a fixture object puts into its archive, on the archive model of C15 and the name model of C20 | calls in any order; the text of the description is an oracle (C89, C92); refutations for equal names, calls after Close, resources lost or replaced when a file is saved again |
| C108, C109 | `BuildModel`, `BuildProps`: the Create functions of a scene and the way through it | calls of all Create functions in any order; interface pointers are places in a heap, reference counts left out |
| C110, C111 | `MvrModel`, `MvrProps`: what is added to a scene, written and handed out again when it is read | the calls of `CMediaRessourceVectorImpl` and `SceneDataExchange` on a disk of files and folders; the description is a text and a list of GDTF names; archives as in C15-C19, paths as in C20 and C56 |
| C112-C114 | `RawModel`, `RawProps`: files on the disk, deleting and duplicating them, their extensions | `CRawOSFileImpl` over a model of fopen/fseek/fread/fwrite on the disk of `MvrModel`; nobody else uses an open file; names as in C56 |
| C115-C118 | `VcomDefs`, `VcomTable`, `VcomModel`, `VcomProofs`, `VcomProps`: the interface objects, their identifiers and reference counts | the tables of identifiers, classes and 194 functions were extracted from the sources by a script and checked by eye; the data behind the objects do not change while objects are handed out; `DoSimpleNode`, `GetGdtfFixture` and second overloads are left out; parents of objects are never set |
| C119-C122 | `DomModel`, `DomProps`: XML nodes in the build with Xerces, and values by path | the calls of Xerces do what the DOM standard says; which names are allowed is a parameter; a path index is read as digits only; base64, namespaces, line numbers, paths relative to a node and the order of attributes are left out |
| C123-C127 | `TransModel`, `TransProps`: points, triangles and transform matrices | doubles are real numbers (no rounding, no overflow); IsOnPlane, IsOnTriangle, the inscribed circle and the functions that only copy are left out |
| C128 | `ColorModel`, `ColorProps`: colours of red, green and blue, CIE colours and the conversions | doubles are real numbers; the limits of Sint32 are left out |
| C129 | `FindModel`, `FindProps`: where the files of a fixture are looked for after its archive was unpacked | on the models of C20 and C106; the disk is a list of paths, the working folder is empty before, every file can be written |
| C130 | `VersionModel`, `VersionProps`: the versions of description files and scenes | wcstol and atoi of the "C" locale |
| C131, C132 | `LineModel`, `LineProps`: lines, segments and distances in the plane | doubles are real numbers; Subtract (which takes its results by value) is left out; IntersectLines with parameters t and s is in `AngleModel`; the functions that go through RelativeCoords are those of C134 |
| C133, C134 | `AngleModel`, `AngleProps`: angles in degrees and coordinates relative to a line | doubles are real numbers, pi and the trigonometric functions are exact; FixedAngle and random numbers are left out |
| C135 | `SpaceModel`, `SpaceProps`: lines and planes in space | doubles are real numbers; what IsOnPlane reads from a destroyed object is a parameter; IsOnTriangle, inscribed circles and ArePointsCollinear (which reads two destroyed objects) are left out |
| C136 | `SubUnitModel`, `SubUnitProps`: the unit of a sub physical unit | enumeration values are numbers as in `EnumModel`; the two numbers are of any type and their texts left out; the two `_refuted` theorems say that a node without a unit has none instead of that of its type, and that setting the type after the unit forgets the unit |
| C137 | `AbortModel`, `AbortProps`: the callback that stops the reading of a description | only which elements become objects is modelled; the callback is any program with a state; the lock held while it runs and the places that ask outside of a traversal are left out |
| C138 | `ProgressModel`, `ProgressProps`: the progress reported while a description is read | the children of the fixture element are a list of names, and the answers of the abort callback outside of traversals are four truth values; what the children contain is left out |

## Conventions of the model

* Assertion macros (`ASSERTN`, `VWFC_ASSERT`, `DSTOP`, `THROW_VWFC_EXCEPTION`) only print (Prefix/StdAfx.h:35-39): they are no-ops.
* `std::wstring_convert` throws on malformed text (strict UTF-8/UTF-16); `toupper`/`tolower` act on ASCII (C locale).
* Signed overflow is undefined; where the code's result only depends on it wrapping, a flag `wraps` selects the gcc behaviour.
* A cast to an enumeration of a number that is no enumerator keeps the number (gcc).
* `atoi` outside the range of int is undefined; a double to Uint64 conversion outside the range is undefined.
* Doubles are non-negative fractions rounded to 53 significant bits, ties to even; exponent limits are not modelled
  (the values that occur lie between 2^-40 and 2^70).

Reading and writing files with Xerces (`XMLLib`, the other XML library the project can be built with; its nodes are in C119-C122), JSON floating point numbers as text,
sockets, the zlib codec, and the file system are not modelled; where they matter they appear as parameters of
a section with their contract as an explicit hypothesis.  In the GDTF objects a reference is its text, and the files
a model looks for are not looked for.  In the MVR scene a pointer is the GUID of what it points to as text; adding a key to
the map of symbol definitions while it is traversed counts as undefined.  The proofs about documents use the bundled tinyxml2.

## Standard-library axioms

All theorems are closed under the global context except those of `TransProps` (C123-C127), `ColorProps` (C128), `LineProps` (C131, C132), `AngleProps` (C133, C134) and `SpaceProps` (C135), which use the real numbers of
the standard library and so

| axiom | used by |
|-------|---------|
| `ClassicalDedekindReals.sig_forall_dec` | every theorem of C123-C128 and C131-C135 but `C126_interface`, `C128_set`, `C128_set_green` and `C128_set_green_refuted` |
| `ClassicalDedekindReals.sig_not_dec` | those of them that use order, sine, cosine or square roots of real numbers |
| `FunctionalExtensionality.functional_extensionality_dep` | every theorem of C123-C128 and C131-C135 but `C126_interface`, `C128_set`, `C128_set_green` and `C128_set_green_refuted` |
| `Classical_Prop.classic` | `C128_range`, `C128_black`, `C128_white_refuted`, `C128_grey_refuted` (powers of real numbers), and every theorem of C133 and C134 (arc tangent and arc cosine) but `C133_sin`, `C133_cos`, `C133_sin_refuted`, `C133_ends`, `C133_unique`, `C133_is_between` and `C133_interpolate`; not by those of C131 |
