{"id": "C01", "title": "Packet header round trip", "statement": "Encoding a packet header and decoding those bytes on the receiving side yields exactly the version, number, count, type and body length that were encoded; the header always occupies 28 bytes, big-endian, starting with the package flag.", "quantifier": "every 32-bit version/number/count/type and every 64-bit body length", "why_tests_cant": "2^192 header values; a test only samples some", "anchors": ["src/mvrxchange/mvrxchange_message.cpp: MVRxchangePacket::EncodeHeader, MVRxchangePacket::DecodeHeader, swap_endian"]}
{"id": "C02", "title": "Foreign packets are refused", "statement": "A byte block whose first four bytes are not the big-endian package flag is refused by header decoding and leaves the previously decoded fields unchanged; a block with the flag is always accepted.", "quantifier": "every 28-byte block and every prior packet state", "why_tests_cant": "the set of foreign headers is unbounded for sampling purposes", "anchors": ["src/mvrxchange/mvrxchange_message.cpp: MVRxchangePacket::DecodeHeader"]}
{"id": "C03", "title": "Packet payload framing", "statement": "After a body is set on a packet (whose buffer has not been grown before), the body read back is byte-identical, the packet length is 28 + body length, and re-encoding the header does not disturb the body.", "quantifier": "every body", "why_tests_cant": "depends on all body lengths, including those that force a reallocation", "anchors": ["src/mvrxchange/mvrxchange_message.cpp: MVRxchangePacket::SetBody, GetBody, GetLength", "src/mvrxchange/mvrxchange_dynamic_buffer.cpp: GrowTo"]}
{"id": "C04", "title": "Receive-buffer bounds", "statement": "When a peer announces a body length, the memory the receiver makes available covers header plus announced body, so the body read never writes outside the allocation.", "quantifier": "every announced 64-bit body length and every prior packet history", "why_tests_cant": "the violation exists only for lengths in a 28-wide window above the pre-allocation and for wrap-around values; random tests never hit it", "anchors": ["src/mvrxchange/mvrxchange_message.cpp: DecodeHeader", "src/mvrxchange/mvrxchange_dynamic_buffer.cpp: GrowTo", "src/mvrxchange/mvrxchange_session.cpp: DoRead"]}
{"id": "C05", "title": "Dynamic buffer growth preserves content", "statement": "Growing, appending to, copying and re-assigning the packet buffer never reads or writes outside its allocations and preserves the bytes already stored.", "quantifier": "every history of buffer operations and sizes", "why_tests_cant": "memory safety over all operation sequences", "anchors": ["src/mvrxchange/mvrxchange_dynamic_buffer.cpp: MVRxchangeDynamicBuffer (GrowTo, Append, FromBuffer, copy, operator=)"]}
{"id": "C06", "title": "Message round trip", "statement": "A message built by one station and turned into a payload is decoded by the receiving station into the same message (type, file name, comment, sizes, identifiers, version numbers, station lists, return status).", "quantifier": "every message of every type whose texts fit the fixed-size fields", "why_tests_cant": "unbounded texts, lists and identifiers", "anchors": ["src/mvrxchange/mvrxchange_message.cpp: MVR_COMMIT_ToJson, MVR_COMMIT_FromJson, FromExternalMessage, ToExternalMessage, Internal_ToExternalMessage"]}
{"id": "C07", "title": "Malformed payloads are reported", "statement": "Any received payload is turned either into a message or into a message with RetIsOK = false; decoding never lets an exception escape and never writes past a fixed-size field.", "quantifier": "every received JSON document / byte body and package type", "why_tests_cant": "the space of hostile payloads is infinite", "anchors": ["src/mvrxchange/mvrxchange_message.cpp: ToExternalMessage, Internal_ToExternalMessage, MVR_COMMIT_FromJson"]}
{"id": "C08", "title": "Commit station lists keep only valid identifiers", "statement": "Decoding a commit keeps, in order, exactly those entries of ForStationsUUID that are well-formed identifiers.", "quantifier": "every station list", "why_tests_cant": "arbitrary list contents and lengths", "anchors": ["src/mvrxchange/mvrxchange_message.cpp: MVR_COMMIT_FromJson"]}
{"id": "C09", "title": "Group membership", "statement": "After any history of received joins, leaves and mDNS results, the group list of the service contains no two entries with the same address and a station that left is not in the list.", "quantifier": "every history of incoming messages", "why_tests_cant": "history-dependent: only some interleavings expose the defect", "anchors": ["src/mvrxchange/CMVRxchangeService.cpp: TCP_OnIncommingMessage"]}
{"id": "C10", "title": "Recipient selection", "statement": "A commit is delivered exactly to the group members named in its station list (to every member when the list is empty); a file request goes exactly to the members named in it (to all when unnamed); every other message goes to every member; order follows the group list and no member is addressed twice per group entry.", "quantifier": "every group list and every message", "why_tests_cant": "arbitrary groups and lists", "anchors": ["src/mvrxchange/CMVRxchangeService.cpp: Send_message"]}
{"id": "C11", "title": "Service name sanitising", "statement": "The service name that is announced contains only letters, digits, '-' and '_', keeps all such characters in order, and sanitising twice equals sanitising once.", "quantifier": "every name", "why_tests_cant": "every string", "anchors": ["src/mvrxchange/CMVRxchangeService.cpp: FilterServiceName"]}
{"id": "C12", "title": "mDNS TXT record round trip", "statement": "The station name and identifier announced in the TXT record are recovered by a peer that parses that record; parsing terminates for every record content.", "quantifier": "every station name and every received TXT content", "why_tests_cant": "termination over all inputs cannot be tested", "anchors": ["src/mvrxchange/CMVRxchangeService.cpp: ConnectToLocalService, mDNS_Client_Task"]}
{"id": "C13", "title": "One reply per connection", "statement": "For every byte stream a peer sends, the server session invokes the handler at most once, sends at most one reply, sends it only after a well-formed header and a complete body, and always ends by closing the session.", "quantifier": "every input stream, every chunking and every error point", "why_tests_cant": "all schedules of asynchronous completions", "anchors": ["src/mvrxchange/mvrxchange_session.cpp: DoRead, DoWrite, Deliver", "src/mvrxchange/mvrxchange_server.cpp: CloseSession"]}
{"id": "C14", "title": "Discovery wait cannot hang", "statement": "A caller that starts a service query and waits for it is always woken once the query has finished.", "quantifier": "every interleaving of the caller and the worker", "why_tests_cant": "schedule-dependent (lost wake-up)", "anchors": ["src/mvrxchange/CMVRxchangeService.cpp: QueryLocalServices, mDNS_Client_Task"]}
{"id": "C15", "title": "Archive round trip", "statement": "After any sequence of additions of distinctly named files to a new archive, reading any of them back yields exactly the bytes added.", "quantifier": "every sequence of additions (names, contents), every position in the sequence", "why_tests_cant": "unbounded sequences and contents; depends on every byte of every entry not being mistaken for structure", "anchors": ["src/Wrapper/ZIPFileImpl.cpp: AddFile, GetFile, GetFileInfo, GetFileCentralHeaderPosition, GetCentralDirPosition, GetEndOfCentralDirPosition", "src/Wrapper/ZIPFileBuffer.cpp"]}
{"id": "C16", "title": "Archive listing", "statement": "Walking an archive that was built by additions with the next-file call, starting from the empty name, visits every added name exactly once in insertion order and then reports the end.", "quantifier": "every sequence of additions", "why_tests_cant": "unbounded number of entries", "anchors": ["src/Wrapper/ZIPFileImpl.cpp: GetNextFile, GetFileCentralHeaderPosition"]}
{"id": "C17", "title": "No silent overwrite in an archive", "statement": "Adding a file under a name that is already present is rejected and leaves the archive bytes unchanged; adding under a new name never alters what is read for existing names.", "quantifier": "every archive built by additions and every new name/content", "why_tests_cant": "quantifies over all archives", "anchors": ["src/Wrapper/ZIPFileImpl.cpp: AddFile"]}
{"id": "C18", "title": "Archive file removal", "statement": "Removing a file makes it disappear from the listing and leaves every other file readable.", "quantifier": "every archive and every removed name", "why_tests_cant": "state-dependent on position in directory and open mode", "anchors": ["src/Wrapper/ZIPFileImpl.cpp: RemoveFile", "src/Wrapper/ZIPFileBuffer.cpp: Open, Close, Write"]}
{"id": "C19", "title": "Opening an archive terminates", "statement": "The loop that unpacks an opened GDTF or MVR archive visits finitely many entries and terminates.", "quantifier": "every archive directory", "why_tests_cant": "non-termination cannot be observed by a test", "anchors": ["src/GDTFManager.cpp: ImportFromZip", "src/SceneDataExchange.cpp: ReadFromFile", "src/Wrapper/ZIPFileImpl.cpp: GetNextFile"]}
{"id": "C20", "title": "Unpacking stays inside the working folder", "statement": "Unpacking an archive only creates files inside the working folder, whatever entry names the archive contains.", "quantifier": "every entry name", "why_tests_cant": "every string; hostile names are not in test archives", "anchors": ["src/GDTFManager.cpp: ImportFromZip", "src/SceneDataExchange.cpp: ReadFromFile", "src/Utility.cpp: ExtractFolderFromPath", "src/Wrapper/FileIdentifier.cpp: Set"]}
{"id": "C21", "title": "Archive write buffer", "statement": "The bytes flushed at close are the concatenation, in order, of everything written since the last clean, for any number and sizes of writes; no write leaves the allocation.", "quantifier": "every sequence of writes/cleans", "why_tests_cant": "all size sequences including those that cross the growth step", "anchors": ["src/Wrapper/ZIPFileBuffer.cpp: Write, CleanBuffer, Close, Copy, Read"]}
{"id": "C22", "title": "IO buffer append", "statement": "Appending to an in-memory file buffer yields the concatenation; setting replaces; copying out gives a prefix of the requested length; reads stay in bounds.", "quantifier": "every sequence of set/append", "why_tests_cant": "all histories", "anchors": ["src/Wrapper/ZIPFileImpl.cpp: CZIPFileIOBufferImpl"]}
{"id": "C23", "title": "SHA-256 correctness", "statement": "The digest computed for a byte sequence equals the FIPS 180-4 SHA-256 digest.", "quantifier": "every message shorter than 2^61 bytes", "why_tests_cant": "the message space is infinite; known-answer tests cover a handful", "anchors": ["src/sha256/sha256.cpp: SHA256::processBlock, processBuffer, getHash"]}
{"id": "C24", "title": "SHA-256 streaming", "statement": "Feeding a message in any split into pieces gives the same digest as feeding it at once.", "quantifier": "every message and every split, including empty pieces", "why_tests_cant": "exponentially many splits", "anchors": ["src/sha256/sha256.cpp: SHA256::add"]}
{"id": "C25", "title": "SHA-256 digest is repeatable", "statement": "Asking for the digest does not change it: asking again, or continuing to add data afterwards, behaves as if the digest had not been asked for.", "quantifier": "every state reachable by additions", "why_tests_cant": "history property", "anchors": ["src/sha256/sha256.cpp: SHA256::getHash, processBuffer"]}
{"id": "C26", "title": "Integrity check", "statement": "Checking a buffer against the checksum produced for it succeeds, and checking it against a checksum succeeds only if the digests agree.", "quantifier": "every buffer", "why_tests_cant": "all buffers", "anchors": ["src/HashManager.cpp: CreateHashForBuffer, CheckHashForBuffer"]}
{"id": "C27", "title": "UUID text round trip", "statement": "Converting an identifier to text (with or without braces) and parsing it back yields the same identifier; distinct identifiers have distinct texts.", "quantifier": "all 2^128 identifiers", "why_tests_cant": "2^128 values", "anchors": ["src/UUID.cpp: VWUUID::ToString, FromString"]}
{"id": "C28", "title": "UUID parsing is strict", "statement": "Text is accepted only if it has the exact 8-4-4-4-12 shape with hexadecimal digits and, if 38 characters long, braces; everything else is rejected and gives the zero identifier.", "quantifier": "every string", "why_tests_cant": "every string", "anchors": ["src/UUID.cpp: VWUUID::FromString, VWUUID(TXString), GetDigitForChar"]}
{"id": "C29", "title": "UUID word round trip", "statement": "Splitting an identifier into four 32-bit words, 16 bytes or the platform struct and rebuilding it yields the same identifier.", "quantifier": "all identifiers", "why_tests_cant": "2^128 values", "anchors": ["src/UUID.cpp: VWUUID(Uint32 x4), GetUUID, VWUUID(TUUIDArray), VWUUID(VWIID)"]}
{"id": "C30", "title": "UUID compact encoding is injective", "statement": "Distinct identifiers have distinct compact encodings when the alphabet has at least 41 distinct symbols.", "quantifier": "all pairs of identifiers and all alphabets", "why_tests_cant": "2^256 pairs", "anchors": ["src/UUID.cpp: VWUUID::Encode"]}
{"id": "C31", "title": "UTF-8 decoding bound", "statement": "Decoding UTF-8 never produces more UTF-16 units than input bytes and never reads past the end, whatever the bytes.", "quantifier": "every byte sequence and length", "why_tests_cant": "all malformed inputs", "anchors": ["src/GSString.cpp: utf8BufferToTXCharBuffer"]}
{"id": "C32", "title": "Unicode round trip", "statement": "Every sequence of Unicode scalar values survives conversion to the internal UTF-16 text and back, and decoding well-formed UTF-8 gives the scalar values encoded.", "quantifier": "every scalar sequence", "why_tests_cant": "infinite", "anchors": ["src/GSString.cpp: utf32BufferToTXCharBuffer, txCharBufferToUtf32Buffer, utf8BufferToTXCharBuffer"]}
{"id": "C33", "title": "Substring operations never split a character", "statement": "Truncate, Left, Right and Mid of well-formed text give well-formed text (no dangling surrogate), equal to the selected range up to dropping half characters at its ends.", "quantifier": "every well-formed text and all positions", "why_tests_cant": "all texts x all positions", "anchors": ["src/GSString.cpp: Truncate, Left, Right, Mid, TrimInvalidCharacters"]}
{"id": "C34", "title": "Text equality and hashing agree", "statement": "Text equality is an equivalence relation that ignores ASCII case, and equal texts have equal hash values in every hash container used by the library.", "quantifier": "all pairs/triples of texts", "why_tests_cant": "all pairs", "anchors": ["src/GSString.cpp: operator==, CompareNoCase", "src/GSString.h: std::hash", "src/GDTFManager.h: TXStringNoCaseHash"]}
{"id": "C35", "title": "Replace", "statement": "Replacing all occurrences terminates and leaves no occurrence of the old text that did not arise from the replacement.", "quantifier": "every text, old and new text", "why_tests_cant": "termination over all inputs", "anchors": ["src/GSString.cpp: TXString::Replace"]}
{"id": "C36", "title": "Split", "statement": "Splitting text at a separator terminates and joining the pieces with the separator gives the text back.", "quantifier": "every text and separator", "why_tests_cant": "termination over all inputs", "anchors": ["src/GSString.cpp: TXString::Split"]}
{"id": "C37", "title": "Search functions", "statement": "Find/ReverseFind/FindOneOf return the first/last position at which the pattern occurs and -1 exactly when it does not occur.", "quantifier": "every text, pattern and start position", "why_tests_cant": "all texts", "anchors": ["src/GSString.cpp: Find, ReverseFind, FindOneOf, FindNotOneOf"]}
{"id": "C38", "title": "Enumeration attributes round trip", "statement": "Every enumeration value written to a description file is read back as the same value.", "quantifier": "all values of every enumeration", "why_tests_cant": "finite but spread over ~25 tables; a missing entry is what tests skip", "anchors": ["src/XmlFileHelper.cpp: ConvertPrimitiveType..., ConvertTransmissionType (paired overloads)"]}
{"id": "C39", "title": "DMX value round trip", "statement": "A DMX value written as value/bytes is read back unchanged on a channel of the same resolution; scaling to more bytes with byte mirroring or shifting stays within range.", "quantifier": "every value and resolution", "why_tests_cant": "2^32 values x resolutions", "anchors": ["src/XmlFileHelper.cpp: ConvertDMXValue, GetChannelMaxDmx"]}
{"id": "C40", "title": "DMX address round trip", "statement": "An absolute DMX address and its Universe.Address form denote the same address; invalid addresses are rejected.", "quantifier": "every address and every string", "why_tests_cant": "all addresses/strings", "anchors": ["src/XmlFileHelper.cpp: ConvertDMXAdress"]}
{"id": "C41", "title": "Integer list round trip", "statement": "A list of integers written to an attribute and read back is the same list.", "quantifier": "every list", "why_tests_cant": "all lists", "anchors": ["src/XmlFileHelper.cpp: ConvertIntegerArray, Deserialize"]}
{"id": "C42", "title": "Date round trip", "statement": "A date-time written to text and read back is unchanged.", "quantifier": "every valid date-time", "why_tests_cant": "all dates", "anchors": ["src/XmlFileHelper.cpp: ConvertDate, DeserializeUTC_Date, IntToString2Digits"]}
{"id": "C43", "title": "Hex value round trip", "statement": "A 16-bit value written as hexadecimal text is read back unchanged; out-of-range text is reported and clamped.", "quantifier": "every value / every string", "why_tests_cant": "2^16 values and all strings", "anchors": ["src/XmlFileHelper.cpp: ConvertHexValue"]}
{"id": "C44", "title": "XML identifier format round trip", "statement": "An identifier written in the spaced hexadecimal XML format is read back unchanged.", "quantifier": "all identifiers", "why_tests_cant": "2^128", "anchors": ["src/XmlFileHelper.cpp: ConvertUUID"]}
{"id": "C45", "title": "Channel offset list round trip", "statement": "Channel byte offsets written to the Offset attribute are read back unchanged.", "quantifier": "every offset combination", "why_tests_cant": "all combinations", "anchors": ["src/XmlFileHelper.cpp: ConvertDmxOffset"]}
{"id": "C46", "title": "Channel functions partition the channel", "statement": "On a logical channel whose functions have strictly increasing start values beginning at 0, the ranges [start,end] of the functions are disjoint and cover 0..max exactly.", "quantifier": "every list of functions", "why_tests_cant": "unbounded lists", "anchors": ["src/GDTFManager.cpp: GdtfDmxChannelFunction::GetEndAdress, GdtfDmxLogicalChannel::AddDmxChannelFunction, OnReadFromNode"]}
{"id": "C47", "title": "Channel sets are ordered after reading", "statement": "After reading a channel function, its channel sets have strictly increasing start values and each set ends just before the next one starts.", "quantifier": "every list of set nodes, virtual and physical channels", "why_tests_cant": "unbounded lists with duplicates and collisions at the limits", "anchors": ["src/GDTFManager.cpp: GdtfDmxChannelFunction::OnReadFromNode, SetNextChannelSet"]}
{"id": "C48", "title": "Written channel sets cover the function", "statement": "Writing a channel function fills the gaps between its channel sets so that the written sets cover the function's range exactly once, keep all original sets and are stable under writing again.", "quantifier": "every list of disjoint channel sets inside the function range", "why_tests_cant": "unbounded lists", "anchors": ["src/GDTFManager.cpp: GdtfDmxChannelFunction::OnPrintToFile"]}
{"id": "C49", "title": "DMX footprint", "statement": "The footprint reported for a break is the number of addresses from the lowest to the highest address used in that break.", "quantifier": "every channel list / geometry tree", "why_tests_cant": "unbounded trees", "anchors": ["src/GDTFManager.cpp: GdtfDmxMode::GetFootPrintForBreak, GetAddressesFromChannel"]}
{"id": "C50", "title": "Break list", "statement": "The break list of a mode is sorted, duplicate free and contains exactly the breaks used by the channels and geometry references; computing it terminates.", "quantifier": "every mode and geometry tree", "why_tests_cant": "unbounded trees, termination", "anchors": ["src/GDTFManager.cpp: GdtfDmxMode::GetBreakArray"]}
{"id": "C51", "title": "Channel resolution", "statement": "The number of bytes of a channel determines the resolution and the maximum value 256^n - 1.", "quantifier": "every offset combination", "why_tests_cant": "all combinations", "anchors": ["src/GDTFManager.cpp: GetChannelBitResolution, IsVirtual", "src/XmlFileHelper.cpp: GetChannelMaxDmx"]}
{"id": "C52", "title": "Lookup indexes are transparent", "statement": "Looking up attributes, wheels, emitters, geometries, channels and functions by reference gives the same object whether or not the lookup index is in use.", "quantifier": "every fixture content and every reference, all sizes around the thresholds", "why_tests_cant": "behaviour must agree on both sides of a size threshold for all contents", "anchors": ["src/GDTFManager.cpp: BuildLookupIndexes, get*ByRef, BuildModeIndexes, GetChannelByIndex, GetFunctionByIndex"]}
{"id": "C53", "title": "Duplicate-channel reporting does not depend on size", "statement": "Whether a duplicate geometry/attribute pair is reported does not depend on how many channels the mode has.", "quantifier": "every mode", "why_tests_cant": "agreement of two algorithms over all inputs", "anchors": ["src/GDTFManager.cpp: ResolveDmxChannelRefs, ResolveDmxLogicalChanRefs"]}
{"id": "C54", "title": "Overlapping functions without mode master are reported", "statement": "Every pair of channel functions of a channel whose ranges overlap and that are not separated by mode masters leads to a reported error, and no error is reported otherwise.", "quantifier": "every list of functions", "why_tests_cant": "all lists", "anchors": ["src/GDTFManager.cpp: CheckForMissingModeMasters"]}
{"id": "C55", "title": "Unexpected and missing attributes are reported", "statement": "Attribute checking reports exactly the mandatory attributes that are missing and the attributes that are neither mandatory nor optional.", "quantifier": "every node and attribute lists", "why_tests_cant": "all nodes", "anchors": ["src/GdtfError.cpp: GdtfParsingError::CheckNodeAttributes"]}
{"id": "C56", "title": "Name sanitising", "statement": "The name filter keeps exactly the allowed characters in order and is idempotent.", "quantifier": "every name", "why_tests_cant": "all strings", "anchors": ["src/Utility.cpp: DoesNameContainInvalidChars, IsValidNameChar"]}
{"id": "C57", "title": "Folder extraction", "statement": "Splitting a path into folder and file name loses nothing: folder + file name is the path, and the file name contains no separator.", "quantifier": "every path", "why_tests_cant": "all strings", "anchors": ["src/Utility.cpp: ExtractFolderFromPath"]}
{"id":"C58","title":"Archive survives close and reopen","statement":"After creating an archive, adding files and closing it, opening the file again lists and delivers exactly the files added, whatever was in the file before.","quantifier":"all previous file contents, all sequences of additions, both compression settings","why_tests_cant":"the history of additions and the previous content are unbounded","anchors":["src/Wrapper/ZIPFileImpl.cpp: OpenNewWrite, Close, OpenRead, AddFile","src/Wrapper/ZIPFileBuffer.cpp: Open, Close"]}
{"id":"C59","title":"Opening an archive for writing keeps its files","statement":"Opening an existing archive for writing and adding a file keeps the files that were already in it.","quantifier":"all existing archives and added files","why_tests_cant":"must hold for every existing archive content","anchors":["src/Wrapper/ZIPFileImpl.cpp: OpenWrite, AddFile","src/Wrapper/ZIPFileBuffer.cpp: Open"]}
{"id":"C60","title":"Damaged archive content is detected","statement":"Reading a file from an archive whose stored bytes no longer match the stored checksum reports an error instead of delivering the damaged bytes.","quantifier":"all archives, all entries, all stored checksums","why_tests_cant":"quantifies over every damaged content and checksum","anchors":["src/Wrapper/ZIPFileImpl.cpp: GetFile, GetFileInfo"]}
{"id": "C61", "title": "Text ordering", "statement": "The less-than operator on texts is a strict weak order whose equivalence is exactly the equality operator.", "quantifier": "all triples of texts", "why_tests_cant": "transitivity quantifies over all triples", "anchors": ["src/GSString.cpp: operator<, operator=="]}
{"id": "C62", "title": "Copying text into caller buffers", "statement": "Copying a text into a caller-supplied character, Pascal or UTF-16 buffer never writes past the given size, always terminates the text and copies the longest prefix that fits, made of whole characters.", "quantifier": "all texts and buffer sizes", "why_tests_cant": "all texts and sizes", "anchors": ["src/GSString.cpp: CopyInto, CopyIntoPascal, PrepareCharBuffer"]}
{"id": "C63", "title": "Trimming", "statement": "Trimming removes exactly the blanks and tabs at both ends and nothing else.", "quantifier": "all texts", "why_tests_cant": "all texts", "anchors": ["src/GSString.cpp: Trim, TrimLeft, TrimRight"]}
{"id": "C64", "title": "Identifier ordering", "statement": "The less-than operator on interface identifiers is a strict total order, lexicographic in the fields, whose equivalence is equality.", "quantifier": "all triples of identifiers", "why_tests_cant": "2^384 triples", "anchors": ["src/Include/VectorworksMVR.h: VWIID::operator<"]}
{"id": "C65", "title": "Unknown enumeration text is reported", "statement": "Attribute text that is none of an enumeration's names adds a parsing error instead of silently becoming the default value.", "quantifier": "every enumeration and every text", "why_tests_cant": "all texts", "anchors": ["src/XmlFileHelper.cpp: Convert*Enum readers"]}
{"id": "C67", "title": "Integer and DMX break attributes", "statement": "Integer attributes of every width, and DMX breaks, are read back unchanged after writing; numbers outside the type are not accepted.", "quantifier": "every value of the type and every text", "why_tests_cant": "2^32 / 2^64 values", "anchors": ["src/XmlFileHelper.cpp: ConvertInteger, ConvertDMXBreak"]}
{"id": "C68", "title": "JSON text round trip", "statement": "The JSON text written for a document without floating point numbers is parsed back to the same document; writing throws exactly when some text in the document is not valid UTF-8; parsing any bytes ends and yields a document with valid texts, or a discarded document.", "quantifier": "every document and every byte sequence", "why_tests_cant": "unbounded nesting, every byte sequence", "anchors": ["src/mvrxchange/json.h: lexer, parser (accept/parse without exceptions), serializer::dump, dump_escaped"]}
{"id": "C69", "title": "Access to the list of found services", "statement": "Asking for the service at a position of the list of found services returns that service, and a position that is not in the list is refused; the list is never read outside its bounds.", "quantifier": "every list of found services and every position", "why_tests_cant": "the position one past the end reads memory that usually belongs to the vector", "anchors": ["src/CMVRxchangeService.cpp: GetLocalServiceCount, GetLocalServiceAt"]}
{"id": "C70", "title": "Which discovery answers are shown", "statement": "The found services come exactly from the answers that have an IPv4 address, are not an own announcement and end with the service type; they keep their order, and of several answers with the same port and addresses only the first is kept.", "quantifier": "every list of answers of the discovery library and every set of own announcements", "why_tests_cant": "unbounded lists of answers from arbitrary peers", "anchors": ["src/CMVRxchangeService.cpp: QueryLocalServices, mvrxchangeClientTask"]}
{"id": "C71", "title": "File buffers are deleted once", "statement": "The buffer of a file attached to a message is deleted exactly once, both when a message is sent and when the server answers a request.", "quantifier": "every message kind, status and heap", "why_tests_cant": "double deletes depend on the message kind and usually corrupt the heap silently", "anchors": ["src/mvrxchange/mvrxchange_message.cpp: FromExternalMessage", "src/mvrxchange/CMVRxchangeService.cpp: Send_message", "src/mvrxchange/mvrxchange_session.cpp: DoReadHeader"]}
{"id": "C72", "title": "What the client takes as a reply", "statement": "The client reports a reply exactly when a complete package with the right flag has arrived, and then has its type and body unchanged.", "quantifier": "every byte sequence a server can send", "why_tests_cant": "all byte sequences and cut points", "anchors": ["src/mvrxchange/mvrxchange_client.cpp: ReadMessage"]}
{"id": "C73", "title": "Pause between discoveries", "statement": "Two successive discoveries of the background thread are separated by the 45 second pause of the timer, however often the service was connected and left.", "quantifier": "every sequence of connects, disconnects, ticks and timer expiries", "why_tests_cant": "needs long runs with reconnects; depends on the cancellation rules of the timer", "anchors": ["src/mvrxchange/CMVRxchangeService.cpp: mDNS_Client_Start, mDNS_Client_Tick, mDNS_Client_Stop"]}
{"id": "C74", "title": "Resolving main attributes is defined", "statement": "Resolving the references of the attributes never changes the list of attributes while it is iterated over.", "quantifier": "every list of attributes", "why_tests_cant": "iterator invalidation is silent unless the vector is moved; needs an attribute without the usual NoFeature entry", "anchors": ["src/GDTFManager.cpp: ResolveAttribRefs, getAttributeByRef, CreateNoFeatureAttribute"]}
{"id": "C66", "title": "Doubles as text", "statement": "A double written as an attribute and read again is the same double, and its text is the same when written again.", "quantifier": "every double (finite, infinite, not a number) and either decimal point", "why_tests_cant": "2^64 doubles; rounding cases are rare and depend on the last bit", "anchors": ["src/GSString.cpp: operator<<(double), atof", "src/XmlFileHelper.cpp: ConvertDouble"]}
{"id": "C75", "title": "Colours, vectors and matrices as text", "statement": "A colour, colour list, vector, matrix (3 or 4 columns), rotation or list of doubles that was written as an attribute is read back with every number at its place, without an error, and gives the same text when written again.", "quantifier": "every such value of valid doubles, every previous value of the output variable", "why_tests_cant": "an exchanged index or a wrong column only shows for values with distinct components; the decimal point depends on the locale of the process", "anchors": ["src/XmlFileHelper.cpp: ConvertColor, ConvertColorArray, ConvertDoubleArray, ConvertVector3, ConvertMatrix, ConvertRotation, Deserialize"]}
{"id": "C76", "title": "Malformed vectors and matrices are refused", "statement": "A vector, colour or matrix text that is accepted without an error has the right brackets and the right number of numbers in every line, and these numbers are the result; reading always ends.", "quantifier": "every text, every decimal point", "why_tests_cant": "malformed values come from foreign files; the space of texts is unbounded", "anchors": ["src/XmlFileHelper.cpp: ConvertColor, ConvertVector3, ConvertMatrix, ConvertRotation, Deserialize"]}
{"id": "C77", "title": "XML documents are read as they were written", "statement": "A tree of elements with attributes, texts, CDATA and comments that is written to a buffer is read back as the same tree (line ends as LF, neighbouring texts joined, texts of white space dropped); it is refused exactly if its elements are nested more than 98 deep. Every element of an accepted text can be written and read again, and what that gives does not change any more.", "quantifier": "every tree with XML names, every text that the reader accepts", "why_tests_cant": "indentation, escaping and text state of the printer have to fit the reader for every shape of tree; tests write a few shapes", "anchors": ["src/rapidxmlsupport/tinyxml2.cpp: XMLPrinter, XMLNode::ParseDeep, XMLElement::ParseDeep, StrPair", "src/rapidxmlsupport/XMLFileImpl.cpp: WriteBuffer, ReadBuffer"]}
{"id": "C78", "title": "The XML reader ends and its values are those of the text", "statement": "The reader comes to an end for every text; whatever it accepts has XML names, different attribute names and bounded nesting; escaped values, named and numbered references stand for the characters they name.", "quantifier": "every byte sequence as input, every value, every reference to a Unicode character with any number of leading zeros", "why_tests_cant": "inputs are foreign files; loops over malformed text and arithmetic on digits only fail for special inputs", "anchors": ["src/rapidxmlsupport/tinyxml2.cpp: StrPair::GetStr, XMLUtil::GetCharacterRef, XMLUtil::ConvertUTF32ToUTF8, XMLDocument::Parse, XMLElement::ParseAttributes"]}
{"id": "C79", "title": "Attributes, texts and children of XML nodes", "statement": "An attribute that is set is the one that is read and leaves the others alone, also through a file; the first child of a name is the same before writing and after reading, and so is the text of a node that is not white.", "quantifier": "every element, attribute name, value and child name", "why_tests_cant": "a lookup that takes the wrong node or attribute only shows in documents with several of them", "anchors": ["src/rapidxmlsupport/XMLFileNodeImpl.cpp: GetNodeAttributeValue, SetNodeAttributeValue, GetNodeValue, SetNodeValue, GetChildNode, CreateChildNode, GetLastChildNode", "src/rapidxmlsupport/tinyxml2.cpp: XMLElement::FindOrCreateAttribute, XMLElement::SetText, XMLElement::GetText"]}
{"id": "C80", "title": "DNS names are written and read as RFC 1035 says", "statement": "A name of labels of 1 to 63 bytes is written as its labels behind their lengths and a zero byte, exactly if it fits; a name in that form, also one that ends with a reference, is read as its labels with dots and its end is found; two names compare equal exactly if their labels do, up to the case of ASCII letters.", "quantifier": "every name, buffer capacity, message around the name and position", "why_tests_cant": "positions, lengths and references have to fit for every layout of a message; tests see the layout of one sender", "anchors": ["mdns_cpp/src/mdns.h: mdns_string_make, mdns_string_make_ref, mdns_string_make_with_ref, mdns_string_extract, mdns_string_skip, mdns_string_equal, mdns_get_next_substring"]}
{"id": "C81", "title": "Reading a name of a foreign message ends and stays inside", "statement": "Skipping and comparing a name end for every message; while one byte is left in the buffer behind the message, no byte outside is read and no more than the capacity of the text buffer is written.", "quantifier": "every byte sequence as message, every position, every capacity", "why_tests_cant": "messages come from any device in the network; malformed names are not part of tests", "anchors": ["mdns_cpp/src/mdns.h: mdns_string_skip, mdns_string_equal, mdns_string_extract, mdns_get_next_substring"]}
{"id": "C82", "title": "All records of a message are handed on", "statement": "For a message with at most one question whose names can be read, the callback gets every record once, in order, with its section, type, class, time to live and the places of its name and data.", "quantifier": "every message of any number of records, every callback", "why_tests_cant": "the offsets of one record depend on all earlier ones; an error shows for certain combinations only", "anchors": ["mdns_cpp/src/mdns.h: mdns_query_recv, mdns_records_parse, mdns_socket_listen, mdns_discovery_recv", "mdns_cpp/src/mdns.cpp: query_callback, service_callback, executeDiscovery"]}
{"id": "C83", "title": "What is sent stays in the send buffer", "statement": "Questions, discovery answers and answers are written inside the buffer given, or not sent.", "quantifier": "every name, text, address and capacity", "why_tests_cant": "a write behind the buffer needs names of a certain length and goes unnoticed without instrumentation", "anchors": ["mdns_cpp/src/mdns.h: mdns_query_send, mdns_discovery_answer, mdns_query_answer, mdns_string_make_with_ref"]}
{"id": "C84", "title": "A station that is announced is found", "statement": "The question that a program sends is answered by a station of the group, and the answer is listed as that station: service name, station name and identifier, addresses, port.", "quantifier": "every group name, station name, identifier, address and port within the limits", "why_tests_cant": "the whole way uses four encodings (TXT entries, DNS records, references, UUID text); tests need two programs in a network", "anchors": ["mdns_cpp/src/mdns.cpp: executeQuery, query_callback, service_callback, runMainLoop", "mdns_cpp/src/mdns.h: mdns_query_send, mdns_query_answer, mdns_query_recv", "src/mvrxchange/CMVRxchangeService.cpp: ConnectToLocalService, mDNS_Client_Task"]}
{"id": "C85", "title": "Answers of several stations are not mixed up", "statement": "Records of different senders give the results they give alone; what arrives twice is listed once; the addresses of a station do not depend on the order in which they arrived.", "quantifier": "every collection of records", "why_tests_cant": "needs several stations that answer the same question", "anchors": ["mdns_cpp/src/mdns.cpp: executeQuery"]}
{"id": "C86", "title": "The interfaces on which a station is announced", "statement": "A station is announced on every IPv4 interface except the local one.", "quantifier": "every IPv4 address", "why_tests_cant": "depends on the interfaces of the computer", "anchors": ["mdns_cpp/src/mdns.cpp: openClientSockets"]}
{"id": "C87", "title": "The attributes of every GDTF object are read as they were written", "statement": "For each of the classes of GDTF objects: if the members hold values of their kinds, writing succeeds, the attributes are those of the class, reading them into a new object gives the same members without a report (numbers up to a millionth), and writing that object again gives the same attributes.", "quantifier": "every class of object, every value of every member, every resolution of the DMX channel", "why_tests_cant": "about ninety classes with some four hundred attributes, each with a writer and a reader of its own; a test sees the combinations of one file", "anchors": ["src/GDTFManager.cpp: OnPrintToFile and OnReadFromNode of all GdtfObject classes", "src/XmlFileHelper.cpp: GdtfConverter"]}
{"id": "C88", "title": "Trees of GDTF objects are read as they were written", "statement": "An object with all its descendants is written to a node from which the same tree is read, in the same order, and written again to the same node.", "quantifier": "every tree of objects of any depth and size with values of their kinds", "why_tests_cant": "the order and classes of children are decided by name comparisons in every class; tests see few shapes", "anchors": ["src/GDTFManager.cpp: GdtfObject::WriteToNode, ReadFromNode, OnPrintToFile, OnReadFromNode", "src/XmlFileHelper.cpp: GdtfConverter::TraverseNodes"]}
{"id": "C89", "title": "A description file is read as it was written", "statement": "The tree of objects comes back from the text of the XML document, too.", "quantifier": "every tree of objects nested up to 98 levels with texts without CR", "why_tests_cant": "quoting, line ends and the depth limit of the XML library matter only for unusual texts and deep trees", "anchors": ["src/GDTFManager.cpp: GdtfObject::WriteToNode, ReadFromNode", "src/rapidxmlsupport/tinyxml2.cpp: XMLDocument::Parse, XMLPrinter"]}
{"id": "C90", "title": "Files written by this library are read without reports", "statement": "Reading what was written adds exactly one report for each reference that is required and not set, and three for each display.", "quantifier": "every tree of objects", "why_tests_cant": "the required and optional attributes are listed apart from the attributes written; they have to agree in every state of every class", "anchors": ["src/GDTFManager.cpp: OnErrorCheck of all GdtfObject classes", "src/GdtfError.cpp: GdtfParsingError::CheckNodeAttributes"]}
{"id": "C91", "title": "Reading passes over what it does not know", "statement": "Further attributes, attributes in another order and further nodes at any level do not change the objects read.", "quantifier": "every node that can be read and every node that contains it", "why_tests_cant": "files of later versions and other programs do not exist when tests are written", "anchors": ["src/GDTFManager.cpp: OnReadFromNode of all GdtfObject classes", "src/XmlFileHelper.cpp: GdtfConverter::TraverseNodes"]}
{"id": "C92", "title": "What is in the objects survives saving and loading", "statement": "Everything an object holds is found again; what was loaded can be saved.", "quantifier": "every object", "why_tests_cant": "needs the parts of the format that example files leave out", "anchors": ["src/GDTFManager.cpp: GdtfFixture::OnReadFromNode, GdtfDmxLogicalChannel::OnReadFromNode, GdtfGeometryLaser, GdtfMacroDMXValue::OnPrintToFile"]}
{"id": "C93", "title": "Every member of the objects of an MVR scene is written", "statement": "No class of scene object has a member that is not written, and a member is left out of the file only if it is an empty text or reference, the numeric fixture id 0 or a matrix that is the identity up to 1e-7.", "quantifier": "every class of scene object, every member, every value", "why_tests_cant": "twenty-seven classes with hand-written writers; a member that one of them forgets is noticed only by whoever sets it", "anchors": ["src/SceneDataExchange.cpp: OnPrintToFile of all SceneData classes"]}
{"id": "C94", "title": "Trees of scene objects are read as they were written", "statement": "A scene object with all its descendants is written to a node from which the same tree is read: same classes, same order, same members (numbers up to their printed precision).", "quantifier": "every tree of scene objects of any depth and size with values of their kinds", "why_tests_cant": "the nodes of children are chosen by container and name comparisons in every class; tests see few shapes", "anchors": ["src/SceneDataExchange.cpp: SceneDataObj::WriteToNode, ReadFromNode, OnPrintToFile, OnReadFromNode"]}
{"id": "C95", "title": "A scene is read as it was written, with its references", "statement": "For a scene whose references can be found, the document written is read as the same scene: user data, layers, mapping definitions, positions and symbol definitions, with every reference to a focus point, position, multipatch parent and symbol definition resolved to the same object, and the flag for duplicate GUIDs is set exactly if two objects share one.", "quantifier": "every scene with references that the format supports, every hash of texts", "why_tests_cant": "references are resolved in several passes over vectors and a hash map; whether one is found depends on order and case of GUIDs", "anchors": ["src/SceneDataExchange.cpp: SceneDataExchange::WriteXml, ReadFromGeneralSceneDescription, ReadChildObjs"]}
{"id": "C97", "title": "What is in a scene survives saving and loading", "statement": "Everything a scene holds is found again after writing and reading.", "quantifier": "every scene", "why_tests_cant": "needs the parts of the format that example files leave out", "anchors": ["src/SceneDataExchange.cpp: SceneDataExchange::WriteXml, SceneDataObj::OnReadFromNode, SceneDataGroupObj, SceneDataCustomCommand, SceneDataGoboObj, SceneDataFixtureObj"]}
{"id": "C98", "title": "MVR files of others can be read", "statement": "Reading a scene description ends for every document. If every symbol has its definition, resolving the references is defined; a symbol without one makes it undefined as soon as another object follows, and so does a GUID of the wrong length.", "quantifier": "every document", "why_tests_cant": "malformed GUIDs and dangling references come from files of other programs", "anchors": ["src/SceneDataExchange.cpp: SceneDataExchange::ReadFromGeneralSceneDescription, SceneDataObjWithMatrix::OnReadFromNode, SceneDataGUID"]}
{"id": "C99", "title": "Duplicate GUIDs are noticed in every file", "statement": "After reading any document the flag for duplicates is set exactly if two scene objects, at any depth, have the same GUID.", "quantifier": "every document that is read", "why_tests_cant": "groups, nesting and the spelling of GUIDs multiply the ways two objects can share one", "anchors": ["src/SceneDataExchange.cpp: SceneDataExchange::ReadChildObjs"]}
{"id": "C100", "title": "DMX addresses split into universe and address", "statement": "An address that was set as universe and address gives the same pair back; for every address the universe is found.", "quantifier": "every universe below 2^54 and address from 1 to 512; every stored address", "why_tests_cant": "the loop that counts universes ends for all but 511 of 2^64 values", "anchors": ["src/SceneDataExchange.cpp: SceneDataDmxAdress constructors, GetUniverse, GetAdress"]}
{"id": "C96", "title": "A scene survives the bytes of its file", "statement": "The description of a scene whose objects are nested at most 47 levels, printed to bytes and parsed again, is read as the same scene; a document nested deeper than 98 elements is refused by the parser.", "quantifier": "every scene as in C95 whose texts have no carriage return and, in nodes of their own, are not blank", "why_tests_cant": "printer, entities, blanks and the depth limit of the parser all have to agree for every text and every shape", "anchors": ["src/SceneDataExchange.cpp: SceneDataExchange::WriteXml, ReadFromGeneralSceneDescription", "src/rapidxmlsupport/tinyxml2.cpp: XMLPrinter, XMLNode::ParseDeep"]}
{"id": "C101", "title": "After a fixture is read every pointer is set to the object its reference means", "statement": "For a fixture whose references hold the reference text of exactly one object of the right class and scope, reading sets exactly the pointers the references describe, to exactly these objects; no pointer is set to an object made up on the way, and errors are reported for empty references of modes, channels and macro values only. The file of such a fixture, read again, has the same pointers.", "quantifier": "every fixture whose objects stand where they may stand, with any number of attributes, geometries nested to any depth, modes, channels, functions, relations, macros and personalities, for every hash function", "why_tests_cant": "the meaning of a reference depends on all other objects of the fixture, on indexes built before attributes are resolved and on names that are generated from references resolved earlier", "anchors": ["src/GDTFManager.cpp: GdtfFixture::ResolveAllReferences, ResolveGeometryRefs_Recursive, ResolveDmxModeRefs, ResolveDmxChannelRefs, ResolveDmxLogicalChanRefs, ResolveDmxChannelFunctionRefs, ResolveDMXModeMasters, ResolveMacroRefs, ResolveAttribRefs, ResolveDMXPersonalityRefs, ResolveWheelSlots"]}
{"id": "C102", "title": "A reference that means one object of its scope is resolved to it or reported", "statement": "A reference of a channel function set to a unit of its own attribute resolves to that unit; of several objects with one name the first is taken; a name matched exactly is preferred to one in another case; every reference that is not resolved is reported; every pointer points to an object of the right class; reading never has undefined behaviour.", "quantifier": "every fixture", "why_tests_cant": "needs fixtures with duplicate names, dangling references and attributes that are not defined in combination", "anchors": ["src/GDTFManager.cpp: GdtfFixture::ResolveAllReferences, ResolveAttribRefs, getUnit, ResolveDmxModeRefs, GdtfDmxChannel::GetName"]}
{"id": "C103", "title": "References to channels and functions follow changes of geometries and attributes", "statement": "Whatever sequence of changes (channels, logical channels and functions added, geometries and attributes set or renamed, functions named) and of requests for references has gone before, the reference written for a channel or function is the one that reading the file resolves to that channel or function.", "quantifier": "every mode, every sequence of calls, with and without lookup indexes, every hash function", "why_tests_cant": "the generated name is kept from the first time it is needed, so the result depends on the order of all earlier calls and on whether the fixture was read from a file", "anchors": ["src/GDTFManager.cpp: GdtfDmxChannel::GetName, GdtfDmxLogicalChannel::GetName, GetNodeReference, SetGeomRef, SetAttribute, GdtfFixture::AutoGenerateNames", "src/Implementation/CGdtfDmxChannel.cpp: SetGeometry", "src/Implementation/CGdtfDmxLogicalChannel.cpp: SetAttribute"]}
{"id": "C104", "title": "Generated names of channel functions are unique and match the written references", "statement": "The names given to the unnamed functions of a logical channel differ from each other, up to case, and equal the names written in references to these functions; a reference to such a function resolves to it.", "quantifier": "every list of functions with any names and attributes, attribute names with blanks and digits included", "why_tests_cant": "depends on the mix of named and unnamed functions and on attribute names that end in numbers", "anchors": ["src/GDTFManager.cpp: GdtfFixture::AutoGenerateNames, GdtfDmxChannelFunction::GetNodeReference, GetNumberInParent"]}
{"id": "C105", "title": "Different entries of an archive are unpacked to different files", "statement": "Two entries with different names are stored in different files, so that no resource replaces another one; resources of different kinds (wheels, models of each level of detail) with the same file name stay apart.", "quantifier": "every working folder, every pair of names of entries", "why_tests_cant": "a clash needs two particular names in one archive, such as an escaped and a plain one, or folders that are equal when written one after another", "anchors": ["src/Wrapper/FolderIdentifier.cpp: SetFullPath, GetFullPath, Set, ValidateFoldername, ConvertFoldername", "src/Wrapper/FileIdentifier.cpp: SetFileFullPath, Set, GetFileFullPath, ValidateFilename, ConvertFilename", "src/Utility.cpp: ExtractFolderFromPath", "src/GDTFManager.cpp: GdtfFixture::ImportFromZip", "src/SceneDataExchange.cpp: ReadFromFile"]}
{"id": "C106", "title": "Every resource added to a new fixture is in its file", "statement": "When a fixture is created, described and filled with resources through the API and then closed, and all calls report success, the file has the description as it was last set and each resource that was added, with its content, under the folder of its kind.", "quantifier": "every order and number of calls that describe the fixture or add a resource, every kind of resource, every name and content that fits an archive", "why_tests_cant": "what gets lost depends on the order of the calls and on names that meet, and every call reports success; a test checks the resources it has just added", "anchors": ["src/Implementation/CGdtfFixture.cpp: OpenForWrite, AddBufferToGdtfFile, Close, RefreshBuffer, FromBufferInternal", "src/GDTFManager.cpp: GdtfFixture::ImportFromZip, GdtfFixture::ExportToFile", "src/XmlFileHelper.cpp: GetResourceSubFolder", "src/Implementation/ZIPFileImpl.cpp: AddFile"]}
{"id": "C107", "title": "A fixture that is read and saved again keeps its resources", "statement": "Reading a GDTF file into a fixture and saving it again (RefreshBuffer) gives a file with the same resources under the same names.", "quantifier": "every archive with a description and any number of resources in any folders", "why_tests_cant": "the loss depends on the folder, the ending and the case of the names and no call fails; round trips in tests have few resources, of the kinds that are kept", "anchors": ["src/Implementation/CGdtfFixture.cpp: OpenForWrite, AddBufferToGdtfFile, Close, RefreshBuffer, FromBufferInternal", "src/GDTFManager.cpp: GdtfFixture::ImportFromZip, GdtfFixture::ExportToFile", "src/XmlFileHelper.cpp: GetResourceSubFolder", "src/Implementation/ZIPFileImpl.cpp: AddFile"]}
{"id": "C108", "title": "An object of a scene is what it was created as", "statement": "After any calls that create objects of an MVR scene, every handle that was given stands for a new object with the kind, the GUID, the name, the matrix and the container of its call, and later calls do not change this.", "quantifier": "every sequence of calls of all Create functions, with any GUIDs, names, matrices and containers", "why_tests_cant": "the values are dropped or changed only for some kinds, for equal names and by later calls; the tests build one scene with different names and identity matrices for groups", "anchors": ["src/SceneDataExchange.cpp: CreateLayerObject, CreateGroupObject, CreateFixture, CreateSceneryObject, CreateFocusPoint, CreateTruss, CreateSupport, CreateVideoScreen, CreateProjector, CreatePositionObject, CreateClassObject, CreateMappingDefinitionObject, CreateSymDefObject, SceneDataGroupObj::AddObject", "src/Implementation/CMediaRessourceVectorImpl.cpp: the Create functions, GetFirstLayer, GetFirstChild, GetNextObject"]}
{"id": "C109", "title": "Going through a scene gives its objects in order", "statement": "Going through the layers, or through the children of a container, with GetFirstLayer, GetFirstChild and GetNextObject ends and gives exactly the objects created there, in the order of their creation.", "quantifier": "every sequence of calls of all Create functions and every container", "why_tests_cant": "the chain of next pointers is broken only if an object gets into two containers, which needs a particular mix of reading and creating", "anchors": ["src/SceneDataExchange.cpp: CreateLayerObject, CreateGroupObject, CreateFixture, CreateSceneryObject, CreateFocusPoint, CreateTruss, CreateSupport, CreateVideoScreen, CreateProjector, CreatePositionObject, CreateClassObject, CreateMappingDefinitionObject, CreateSymDefObject, SceneDataGroupObj::AddObject", "src/Implementation/CMediaRessourceVectorImpl.cpp: the Create functions, GetFirstLayer, GetFirstChild, GetNextObject"]}
{"id": "C110", "title": "Everything added to a scene is in its file", "statement": "If a scene is opened for writing, files, buffers and GDTF folders are added in any order and the scene is closed, and all calls succeed, then the MVR file holds the description, every added file and buffer and the GDTF file of every fixture from the first folder that has it, each with its content, and no other file is changed.", "quantifier": "every content of the disk, every sequence of additions, every description and list of GDTF names, every compression that can be undone", "why_tests_cant": "the archive depends on the whole disk, the order of the calls and the names; the tests write one scene with a handful of files and do not look for what is missing", "anchors": ["src/Implementation/CMediaRessourceVectorImpl.cpp: AddFileToMvrFile, AddBufferToMvrFile, AddGdtfFolderLocation, OpenForWrite, Close, OpenForRead, GetAttachedFileCountAt", "src/SceneDataExchange.cpp: SceneDataExchange::WriteToFile, ReadFromFile, AddNeededGdtfFile, AddFileToZip, AddBufferToZip, the constructor", "src/XmlFileHelper.cpp: AddFileToZip, ISceneDataZipBuffer::WriteToFile", "src/Implementation/CSceneObjImpl.cpp: the GDTF file of a fixture"]}
{"id": "C111", "title": "The files of a scene are handed out again when it is read", "statement": "Reading an MVR file with a new object gives its description, and lists every other entry, in order, as a path under which a file with the content of the entry now exists; the GDTF file of a fixture is found there whether its name is given with the extension or without; deleting the object deletes these files and no others.", "quantifier": "every archive of entries with different names without folders, every content of the disk; every scene written by C110", "why_tests_cant": "depends on the names in the archive, the state of the working folder that all objects share and on what was read before; the tests read archives they wrote, once", "anchors": ["src/Implementation/CMediaRessourceVectorImpl.cpp: AddFileToMvrFile, AddBufferToMvrFile, AddGdtfFolderLocation, OpenForWrite, Close, OpenForRead, GetAttachedFileCountAt", "src/SceneDataExchange.cpp: SceneDataExchange::WriteToFile, ReadFromFile, AddNeededGdtfFile, AddFileToZip, AddBufferToZip, the constructor", "src/XmlFileHelper.cpp: AddFileToZip, ISceneDataZipBuffer::WriteToFile", "src/Implementation/CSceneObjImpl.cpp: the GDTF file of a fixture"]}
{"id": "C112", "title": "Reading and writing at places of a file", "statement": "A file opened through IRawOSFile behaves like a sequence of bytes: writing at a position changes exactly the bytes there (a gap is filled with zeros), reading gives the bytes from a position on, the size is their number, and the file is emptied on opening exactly if the caller asks for it.", "quantifier": "every content of the disk, every mode of opening, every sequence of reads, writes and sizes with 64 bit positions", "why_tests_cant": "the modes differ only on files that exist already and at positions other than the end; the tests only write new files from the start", "anchors": ["src/Wrapper/RawOSFileimpl.cpp: CRawOSFileImpl::Open, Close, GetFileSize, Read, Write"]}
{"id": "C113", "title": "Deleting and duplicating files", "statement": "DeleteOnDisk removes the file and nothing else and reports success exactly if the file is gone; DuplicateOnDisk gives the destination the content of the source, changes nothing else, respects the overwrite flag and reports a failure if it could not copy.", "quantifier": "every content of the disk and every pair of file identifiers", "why_tests_cant": "the wrong answers depend on what is on the disk before; the tests never look at them", "anchors": ["src/Wrapper/FileIdentifier.cpp: ExistsOnDisk, DeleteOnDisk, DuplicateOnDisk", "src/Wrapper/FilingWrapper.cpp: TFileIdentifier::ExistsOnDisk, DeleteOnDisk, DuplicateOnDisk"]}
{"id": "C114", "title": "Extensions of file names", "statement": "The extension of a file is what follows the last dot of its name, the name without extension what precedes it, and setting an extension replaces exactly that part.", "quantifier": "all folders and names without separators, ':' and '%', all extensions", "why_tests_cant": "dots in folder names and extensions given with a dot are rare combinations that no test has", "anchors": ["src/Wrapper/FileIdentifier.cpp: GetFileExtension, SetFileExtension, GetFileNameWithoutExtension", "src/Wrapper/FilingWrapper.cpp: TFileIdentifier::GetFileExtension, GetFileNameWithoutExtension"]}
{"id": "C115", "title": "Elements by index", "statement": "Every function of the interface that gives an element by index gives a new interface object for exactly that element if the index is below the number of elements, and otherwise returns an error and changes nothing; a loop over all indices gives every element once, in order.", "quantifier": "every list, every index, every earlier content of the result variable, all 60 such functions", "why_tests_cant": "the wrong checks differ only for the index equal to the number of elements, which no loop of the tests uses", "anchors": ["src/Implementation/*.cpp: the functions Get...At", "src/Implementation/CSceneObjImpl.cpp: GetProtocolAt, GetAdressAt", "src/Implementation/CGdtfGamut.cpp: GetPointAt"]}
{"id": "C116", "title": "Identifiers of interfaces", "statement": "The identifiers of the interfaces are pairwise different and ordered by a strict total order; asking for one makes a new object of the class that implements the interface with one reference, any other identifier makes nothing, and no function casts an object to another class than the one it asked for.", "quantifier": "every pair of identifiers, all declared interfaces, all functions that give out an object", "why_tests_cant": "the identifiers are 71 constants typed by hand in as many headers; a wrong one is noticed only by a program that uses that interface", "anchors": ["src/Include/VectorworksMVR.h: VWIID, VCOMPtr::Query", "src/ModuleMain.cpp: VWQueryInterface"]}
{"id": "C117", "title": "Reference counts", "statement": "Whatever a program does with VCOMPtr variables and the functions that give out objects, no object is used after it was deleted, the count of every object is the number of variables that hold it, and every object is deleted when the last variable is gone.", "quantifier": "all programs of fewer than 2^32 commands over any number of variables, all contents of the data behind the objects", "why_tests_cant": "needs all orders of assignments, copies, calls and ends of scopes, also with the same variable as object and as result", "anchors": ["src/Include/VectorworksMVR.h: VCOMPtr", "src/Prefix/StdAfx.h: VCOMImpl, VCOMImmediateImpl", "src/ModuleMain.cpp: VWQueryInterface", "src/Implementation/*.cpp, src/Wrapper/*.cpp, src/XMLLib/*.cpp: the functions that give out an object"]}
{"id": "C118", "title": "Linked objects and objects that were not set up", "statement": "A function that gives out a linked object gives an interface object that stands for it, or an error if there is none; an interface object that was not set up answers every such function with an error.", "quantifier": "all functions that give out one object, every data behind the objects, every earlier content of the result variable", "why_tests_cant": "unset links and objects without data are not in the files the tests read", "anchors": ["src/Implementation/*.cpp: the functions that give out one object", "src/Implementation/*.cpp: the constructors"]}
{"id": "C119", "title": "Values, CDATA and attributes of XML nodes (Xerces)", "statement": "A value, CDATA text or attribute that was set on a node is read back; setting one changes nothing else, and a deleted attribute is gone.", "quantifier": "every node with any children and attributes, every text", "why_tests_cant": "nodes that start with a comment or have two CDATA sections do not occur in files the library wrote itself", "anchors": ["src/XMLLib/XMLFileNodeImpl.cpp: GetNodeValue, SetNodeValue", "src/XMLLib/XMLFileNodeImpl.cpp: GetNodeCDATA, SetNodeCDATA, DeleteNodeCDATA", "src/XMLLib/XMLFileNodeImpl.cpp: GetNodeAttributeValue, SetNodeAttributeValue, DeleteNodeAttribute"]}
{"id": "C120", "title": "Going through the children of XML nodes (Xerces)", "statement": "First, next, last and previous visit exactly the elements among the children in order; a child asked for by name and index is the one with that index among the children of the name, and one asked for by attribute is the first that has it, otherwise the right error is returned.", "quantifier": "every list of children with texts and comments between the elements, every name and index", "why_tests_cant": "needs all mixtures of elements, texts and comments", "anchors": ["src/XMLLib/XMLFileNodeImpl.cpp: GetFirstChildNode, GetNextSiblingNode, GetLastChildNode, GetPrevSiblingNode", "src/XMLLib/XMLFileNodeImpl.cpp: GetChildNode, FindChildNode"]}
{"id": "C121", "title": "Adding and deleting children of XML nodes (Xerces)", "statement": "A child added before an index gets that index, or comes last if there are not so many, and all others keep their order; deleting a node deletes nothing else.", "quantifier": "every list of children, every index", "why_tests_cant": "white space between elements shifts the numbers; only some mixtures go wrong", "anchors": ["src/XMLLib/XMLFileNodeImpl.cpp: CreateChildNode, CreateChildNodeBeforeIndex", "src/XMLLib/XMLFileNodeImpl.cpp: AddCopyOfExistingNodeBeforeIndex", "src/XMLLib/XMLFileNodeImpl.cpp: DeleteNode"]}
{"id": "C122", "title": "XML values by path (Xerces)", "statement": "A value set by a path of names, with or without an attribute at the end, is read back by the same path; missing nodes are made, and the nodes of other paths are not changed.", "quantifier": "every document, every path of names, every value", "why_tests_cant": "needs documents in which the path exists in part, several times or with other content", "anchors": ["src/XMLLib/XMLFileImpl.cpp: Tokenize, DoSimpleNode, GetSimpleValue, SetSimpleValue"]}
{"id": "C123", "title": "Products and inverses of transform matrices", "statement": "A point taken through the product of two matrices is the point taken through the first and then the second; products are associative with the identity matrix as neutral element; the inverse of a regular matrix undoes it from both sides.", "quantifier": "all matrices and points over the real numbers", "why_tests_cant": "tests compare a few matrices; small factors such as millimetres to metres are not among them", "anchors": ["src/VWTransformMatrix.cpp: operator*, PointTransform", "src/VWTransformMatrix.cpp: Invert"]}
{"id": "C124", "title": "Points back through a matrix", "statement": "InversePointTransform undoes PointTransform, with three and with two coordinates.", "quantifier": "all matrices and points over the real numbers", "why_tests_cant": "it goes wrong only for matrices with scaling or shear", "anchors": ["src/VWTransformMatrix.cpp: PointTransform, InversePointTransform, TransformPoint, InverseTransformPoint"]}
{"id": "C125", "title": "Moving, turning and scaling matrices", "statement": "The After functions multiply by the step from the right and the Before functions from the left; turning by two angles is turning by their sum; turning keeps distances; turning round a point and scaling with a centre do not move that point.", "quantifier": "all matrices, points, angles and factors over the real numbers", "why_tests_cant": "signs and the order of rows and columns show only for general matrices and angles", "anchors": ["src/VWTransformMatrix.cpp: TranslateAfter, TranslateBefore, RotateXAfter .. RotateZBefore, ScaleAfter", "src/VWTransformMatrix.cpp: RotateRoundPoint, ScaleWithCenter"]}
{"id": "C126", "title": "Rotations, flipped and equal matrices", "statement": "SetRotation makes a rotation about the axis by the angle in the same direction as the Rotate functions; SetRotation with a vector makes a rotation with this first vector; IsFlipped says whether the orientation changes; IsEqual is an equivalence; conversion to the matrices of the interface and back loses nothing.", "quantifier": "all axes, angles, vectors and matrices over the real numbers", "why_tests_cant": "zero or upright vectors and small matrices are special cases tests do not have", "anchors": ["src/VWTransformMatrix.cpp: SetRotation, IsFlipped, FlipMatrix, IsEqual", "src/VWPoint3D.cpp: Normalize", "src/Utility.cpp: GdtfUtil::ConvertMatrix"]}
{"id": "C127", "title": "Triangles", "statement": "The cross product is perpendicular to its factors; the circle through three points has the same distance from all three and lies in their plane, and is missing exactly for small triangles; the signed area is the area with a sign; the longest edge is one.", "quantifier": "all triangles over the real numbers", "why_tests_cant": "needs all triangles, also flat ones", "anchors": ["src/VWPoint3D.cpp: Cross, TriArea, GetTriCircumCircle, GetTriLongestEdge"]}
{"id": "C128", "title": "Colours", "statement": "A value set in a colour is read back; a colour between two colours lies between them; an RGB colour converted to CIE and back is the same, and every CIE colour gives values from 0 to 255.", "quantifier": "all colours, all CIE coordinates over the real numbers", "why_tests_cant": "the conversion back is off by one or by a curve only for some colours, and the green setter is the odd one of three", "anchors": ["src/RGBColor.cpp: SetRed, SetGreen, SetBlue, CRGBColor(leftColor, rightColor, dPercent)", "src/CieColor.cpp: CCieColor(const CRGBColor&), GetRGBColor"]}
{"id": "C129", "title": "The files of a fixture are found", "statement": "The functions for the full paths of models, images of wheels and thumbnails find every resource that is in the archive in the folder of its kind and nothing else, and the paths they return stay valid.", "quantifier": "every list of entries, every kind, name and ending, every sequence of calls", "why_tests_cant": "the folders are written in two places, flattened in one and with separators in the other; tests have no files for all twelve functions and never compare two returned paths", "anchors": ["src/GDTFManager.cpp: GdtfModel::GetGeometryFile_3DS_FullPath .. GetGeometryFile_GLTFHigh_FullPath", "src/GDTFManager.cpp: GdtfWheelSlot::GetGoboFileFullPath", "src/GDTFManager.cpp: GdtfFixture::GetFullThumbNailPath", "src/GDTFManager.cpp: GdtfFixture::ImportFromZip", "src/XmlFileHelper.cpp: GetResourceSubFolder"]}
{"id": "C130", "title": "Versions of files", "statement": "The version of a description file or scene is taken from its attributes exactly as they say it, malformed versions are noticed without failing, and the interfaces hand out the version of every file.", "quantifier": "every text of the attribute, every pair of numbers", "why_tests_cant": "tests read files of one version; the numbers at the limits of int, texts without a point and versions ending in 0 do not occur", "anchors": ["src/GDTFManager.cpp: GdtfFixture::ImportFromZip", "src/Implementation/CGdtfFixture.cpp: CGdtfFixtureImpl::GetGDTFVersion", "src/SceneDataExchange.cpp: SceneDataExchange::ReadFromGeneralSceneDescription", "src/Implementation/CMediaRessourceVectorImpl.cpp: CMediaRessourceVectorImpl::GetMVRVersion"]}
{"id": "C131", "title": "Lines and segments in the plane", "statement": "Crossing lines are found with their only common point, the flags and the tests for segments agree with where it is, parallel lines are the ones called parallel, and sides, line equations and turned points are right.", "quantifier": "every four points, every epsilon", "why_tests_cant": "the functions differ in their tolerances and treat common starts differently; tests do not call them", "anchors": ["src/VWLine2D.cpp: VWLine2D::IntersectLines", "src/VWLine2D.cpp: VWLine2D::AreLineSegmentsIntersecting", "src/VWLine2D.cpp: VWLine2D::DoLineSegmentsBoundsIntersect", "src/VWLine2D.cpp: VWLine2D::CalcLineEquation", "src/VWLine2D.cpp: VWLine2D::AreOnSameSide", "src/VWLine2D.cpp: VWLine2D::PtOnLeftOfLine", "src/VWPoint2D.cpp: VWPoint2D::RotateAtRad"]}
{"id": "C132", "title": "Distances from lines and segments", "statement": "The projection on a line and the closest point of a segment are the points of it that no other is closer than, and the distances are those to these points.", "quantifier": "every point and every line or segment", "why_tests_cant": "being the closest of infinitely many points cannot be tested, and the wrong cases are points far from a segment and short lines", "anchors": ["src/VWLine2D.cpp: VWLine2D::PtPerpLine", "src/VWLine2D.cpp: VWLine2D::PtPerpLineSeg", "src/VWLine2D.cpp: VWLine2D::Distance"]}
{"id": "C133", "title": "Angles", "statement": "Sines and cosines of degrees are periodic and right, the angle of a vector is the only one in its range that points in the direction of the vector, the angle between vectors has the right cosine, and interpolation and betweenness are what they are named after.", "quantifier": "every angle, vector and epsilon", "why_tests_cant": "quadrants, borders of ranges and further turns are infinitely many cases, and the tests never call these functions", "anchors": ["src/VWMathUtils.cpp: MathUtils::SpecialSin", "src/VWMathUtils.cpp: MathUtils::SpecialCos", "src/VWMathUtils.cpp: MathUtils::IsBetween", "src/VWMathUtils.cpp: MathUtils::CalculateInterpolatedValue", "src/VWPoint2D.cpp: VWPoint2D::CalcAng180", "src/VWPoint2D.cpp: VWPoint2D::CalcAng360", "src/VWPoint2D.cpp: VWPoint2D::CalcAngleBetween"]}
{"id": "C134", "title": "Coordinates relative to a line", "statement": "The coordinates of a point relative to a line are its components along and across it, so the foot of the perpendicular, the test for points of a segment, the distance from a segment and the angle between two lines are right.", "quantifier": "every point, every line, every epsilon", "why_tests_cant": "they go through angles and back, and being the closest of infinitely many points cannot be tested", "anchors": ["src/VWPoint2D.cpp: VWPoint2D::RelativeCoords", "src/VWPoint2D.cpp: VWPoint2D::SetPointByAngle", "src/VWLine2D.cpp: VWLine2D::PtOnLine", "src/VWLine2D.cpp: VWLine2D::PtPerpLine", "src/VWLine2D.cpp: VWLine2D::DistanceSeg", "src/VWLine2D.cpp: VWLine2D::GetAngle90"]}
{"id": "C135", "title": "Lines and planes in space", "statement": "The distance from a line in space is the smallest to its points, the height above a point of its projection is that of the line, the points of a segment are on it, and a line that is not parallel to a plane meets it in the only common point, found if it is on the segment.", "quantifier": "every point, line and plane, every epsilon", "why_tests_cant": "being the closest or only one of infinitely many points cannot be tested, and the wrong cases are single points and a read of a destroyed object", "anchors": ["src/VWLine3D.cpp: VWLine3D::GetDistance", "src/VWLine3D.cpp: VWLine3D::GetVerticalDistance", "src/VWLine3D.cpp: VWLine3D::IsPtOnLine", "src/VWLine3D.cpp: VWLine3D::PtOnLine", "src/VWLine3D.cpp: VWLine3D::IntersectPlane", "src/VWPoint3D.cpp: VWPoint3D::IsOnPlane"]}
{"id": "C136", "title": "The unit of a sub physical unit", "statement": "After any calls the type and the two numbers of a sub physical unit are the ones set last, its unit is the one set last or, if the type was created or set after it, that of the type (angle for a placement offset, time for a duration, percent for the others), and both are read back as written; a node without a unit gets that of its type.", "quantifier": "every sequence of calls, every type and unit", "why_tests_cant": "the setters overwrite each other, so that the result depends on the order of all calls, and on what a file leaves out", "anchors": ["src/GDTFManager.cpp: GdtfSubPhysicalUnit::SetType", "src/GDTFManager.cpp: GdtfSubPhysicalUnit::SetPhysicalUnit", "src/GDTFManager.cpp: GdtfSubPhysicalUnit::OnReadFromNode", "src/XmlFileHelper.cpp: GdtfConverter::GetUnitFromSubPhysical"]}
{"id": "C137", "title": "Stopping the reading of a description", "statement": "Without a callback that says stop every wanted element becomes an object, in order; once it says stop nothing more is read, so that the objects are the beginning of the file.", "quantifier": "every tree of elements, every callback with a state of its own", "why_tests_cant": "the callback may answer differently every time it is asked, and it is asked at every element of a tree of any depth", "anchors": ["src/GDTFManager.cpp: GdtfObject::CheckAbort", "src/GDTFManager.cpp: GdtfWheel::OnReadFromNode", "src/GDTFManager.cpp: GdtfFixture::OnReadFromNode", "src/XmlFileHelper.cpp: GdtfConverter::TraverseNodes"]}
{"id": "C138", "title": "The progress of reading a description", "statement": "Every progress report is one node further than the one before it and has the same total, no report says that more is done than there is, and the last one says that everything is done.", "quantifier": "every list of children of the fixture element, every place where reading is stopped", "why_tests_cant": "which optional elements a file has, and how many, decides whether the numbers agree; files with all of them look right", "anchors": ["src/GDTFManager.cpp: GdtfFixture::GetFileNodesCount", "src/GDTFManager.cpp: GdtfFixture::OnReadFromNode", "src/FeedbackDispatcher.cpp: FeedbackDispatcher::Send"]}
