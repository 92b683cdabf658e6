(** * The file of a scene: what is added to it, written and handed out again

    /repo/src/Implementation/CMediaRessourceVectorImpl.cpp: AddFileToMvrFile (26-43), AddBufferToMvrFile (45-61),
    AddGdtfFolderLocation (63-74), OpenForWrite (87-101), Close (979-997), OpenForRead (999-1023),
    GetAttachedFileCount (1492-1498), GetAttachedFileCountAt (1500-1510); SceneDataExchange.cpp: the constructor
    and the destructor (2855-2896), WriteToFile (3457-3584), AddNeededGdtfFile (3692-3706), ReadFromFile (3714-3787), AddFileToZip (4128-4146),
    AddBufferToZip (4148-4151), GetAttachedFileCountAt (4158-4164); XmlFileHelper.cpp: AddFileToZip (2231-2271),
    ISceneDataZipBuffer::WriteToFile (2565-2584); CSceneObjImpl.cpp:426-444 (where the GDTF file of a fixture is looked for).

    Simplified: the scene is the text of its description and the GDTF files its objects name, in the order in which they
    are printed ([sc_desc], [sc_specs]; C93-C99 are about the description).  On the disk there are regular files and
    folders, found by their whole path; files can be written in folders that exist, and everything can be read.  All files
    that are added through the interface are of the kind RessoureFixture, so there is one list.  The working folder of the
    user is [work]; it can be created. *)
From Coq Require Import String List NArith Bool.
From Verif Require Import Bytes Txt UtfModel StringModel ZipModel PathModel.
Import ListNotations.
Open Scope N_scope.
Open Scope list_scope.

(** ** The disk *)
Record disk := mkDisk { d_files : list (list N * list N); d_folders : list (list N) }.
Definition content (d : disk) (p : list N) : option (list N) :=
  match find (fun e => beq_bytes (fst e) p) (d_files d) with Some e => Some (snd e) | None => None end.
Definition put_file (d : disk) (p x : list N) : disk :=
  mkDisk ((p, x) :: filter (fun e => negb (beq_bytes (fst e) p)) (d_files d)) (d_folders d).
(** [Open] and [Read]: FileIdentifier.cpp:205-223, ZIPFileImpl.cpp:980-1002. *)
Definition read_file (d : disk) (f : file_id) : option (list N) :=
  match file_path f with Some p => content d p | None => None end.
(** [Open] with "wb" or "wb+" and [Write]. *)
Definition write_file (d : disk) (f : file_id) (x : list N) : disk :=
  match file_path f with
  | Some p => if existsb (beq_bytes (get_full_path (PathModel.f_folder f))) (d_folders d) then put_file d p x else d
  | None => d
  end.
(** ** The object *)
Record scene := mkScene {
  sc_desc : list N; sc_specs : list (list N);
  sc_path : file_id; sc_write : bool; sc_read : bool;
  sc_files : list file_id;                           (* fFixtureResources_FilesToAdd *)
  sc_buffers : list (list N * list N);               (* fBuffersToAdd *)
  sc_need : list (list N);                           (* fRequiredGdtfFiles *)
  sc_folders : list (list (list N));                 (* fGdtfFolderLocations *)
  sc_zip : list file_id }.                           (* fFilesInZip *)
Inductive code := NoError | Failed | InvalidArg.
Inductive call :=
| Scene (desc : list N) (specs : list (list N))      (* any change of the objects *)
| OpenWrite (path : list N)
| AddFile (path : list N)
| AddBuffer (name data : list N)
| AddFolder (path : list N)
| Close
| OpenRead (path : list N)
| Outside (d : disk).                                (* others change the disk *)

(** [AddNeededGdtfFile] *)
Definition need (l : list (list N)) (n : list N) : list (list N) := if existsb (fun x => txeq x n) l then l else l ++ [n].
(** [AddFileToZip] for a file, XmlFileHelper.cpp:2231-2261: the entry, if the file is there.  The name is the last part of
    the path, as it is stored. *)
Definition file_entry (d : disk) (f : file_id) : list (list N * list N) :=
  match read_file d f with Some x => [(PathModel.f_name f, x)] | None => [] end.
(** 3558-3577: the first folder in which the file is. *)
Fixpoint gdtf_entry (d : disk) (folders : list (list (list N))) (n : list N) : list (list N * list N) :=
  match folders with
  | [] => []
  | h :: r => match file_entry d (file_set h n) with [] => gdtf_entry d r n | l => l end
  end.
(** What [WriteToFile] adds, in this order. *)
Definition entries (d : disk) (s : scene) (needed : list (list N)) : list (list N * list N) :=
  (T"GeneralSceneDescription.xml", sc_desc s) :: flat_map (file_entry d) (sc_files s) ++ sc_buffers s ++ flat_map (gdtf_entry d (sc_folders s)) needed.

Section WithOracles.
  Variable o : oracle.
  Variable clk : list N -> N * N.
  Variable fuel : nat.
  Variable work : list (list N).

  (** The constructor.  The working folder is deleted and created again, but [DeleteOnDisk] (FolderIdentifier.cpp:820-924)
      removes only empty folders: [EnumerateContents] (735-763) does not look into the folder, and that [remove] fails is
      not noticed (FilingWrapper.cpp:130-133). *)
  Definition create (d : disk) : disk * scene :=
    let p := get_full_path work in
    (mkDisk (d_files d) (if existsb (beq_bytes p) (d_folders d) then d_folders d else p :: d_folders d),
     mkScene [] [] no_file false false [] [] [] [] []).
  (** The destructor: the files in [fFilesInZip] are deleted. *)
  Definition delete_file (d : disk) (f : file_id) : disk :=
    match file_path f with Some p => mkDisk (filter (fun e => negb (beq_bytes (fst e) p)) (d_files d)) (d_folders d) | None => d end.
  Definition destroy (w : disk * scene) : disk := fold_left delete_file (sc_zip (snd w)) (fst w).

  (** [AddFile] on an archive that is opened with [OpenNewWrite] and compresses; the result is not looked at. *)
  Fixpoint adds (z : zbytes) (l : list (list N * list N)) : zres zbytes :=
    match l with
    | [] => ZOk z
    | (n, x) :: r =>
      match to_bytes n with
      | None => ZThrow
      | Some b => do! (c, z') <- add_file o true (clk n) z b x; adds z' r
      end
    end.

  (** [ReadFromFile]: the entries one after another.  The result of [GetFile] is not looked at; [desc] is the last
      description. *)
  Fixpoint unpack (n : nat) (buf : zbytes) (cur : list N) (st : disk * option (list N) * list file_id) : zres (disk * option (list N) * list file_id) :=
    match n with
    | O => ZFuel
    | S n' =>
      do! x <- next_file buf cur;
      match x with
      | None => ZOk st
      | Some name =>
        do! g <- get_file o buf name;
        let data := match g with Some y => y | None => [] end in
        let '(d, desc, fs) := st in
        if beq_bytes name (T"GeneralSceneDescription.xml") then unpack n' buf name (d, Some data, fs)
        else
          match set_from_chars name with
          | None => ZThrow
          | Some u => let f := file_set work u in unpack n' buf name (write_file d f data, desc, fs ++ [f])
          end
      end
    end.

  Definition step (c : call) (w : disk * scene) : zres (code * (disk * scene)) :=
    let '(d, s) := w in
    match c with
    | Scene x y => ZOk (NoError, (d, mkScene x y (sc_path s) (sc_write s) (sc_read s) (sc_files s) (sc_buffers s) (sc_need s) (sc_folders s) (sc_zip s)))
    | OpenWrite [] => ZOk (Failed, (d, mkScene (sc_desc s) (sc_specs s) no_file (sc_write s) (sc_read s) (sc_files s) (sc_buffers s) (sc_need s) (sc_folders s) (sc_zip s)))
    | OpenWrite p => ZOk (NoError, (d, mkScene (sc_desc s) (sc_specs s) (set_file_full_path p) true (sc_read s) (sc_files s) (sc_buffers s) (sc_need s) (sc_folders s) (sc_zip s)))
    | AddFile p =>
      let f := match p with [] => no_file | _ => set_file_full_path p end in
      match read_file d f with
      | None => ZOk (Failed, (d, s))
      | Some _ => ZOk (NoError, (d, mkScene (sc_desc s) (sc_specs s) (sc_path s) (sc_write s) (sc_read s) (sc_files s ++ [f]) (sc_buffers s) (sc_need s) (sc_folders s) (sc_zip s)))
      end
    | AddBuffer [] _ | AddBuffer _ [] => ZOk (InvalidArg, (d, s))
    | AddBuffer n x => ZOk (NoError, (d, mkScene (sc_desc s) (sc_specs s) (sc_path s) (sc_write s) (sc_read s) (sc_files s) (sc_buffers s ++ [(n, x)]) (sc_need s) (sc_folders s) (sc_zip s)))
    | AddFolder p => ZOk (NoError, (d, mkScene (sc_desc s) (sc_specs s) (sc_path s) (sc_write s) (sc_read s) (sc_files s) (sc_buffers s) (sc_need s) (sc_folders s ++ [set_full_path p]) (sc_zip s)))
    | Close =>
      if sc_write s then
        let needed := fold_left need (sc_specs s) (sc_need s) in
        do! z <- adds [] (entries d s needed);
        ZOk (NoError, (write_file d (sc_path s) z, mkScene (sc_desc s) (sc_specs s) (sc_path s) (sc_write s) (sc_read s) (sc_files s) [] needed (sc_folders s) (sc_zip s)))
      else if sc_read s then ZOk (NoError, w) else ZOk (Failed, w)
    | OpenRead [] => ZOk (Failed, (d, mkScene (sc_desc s) (sc_specs s) no_file (sc_write s) (sc_read s) (sc_files s) (sc_buffers s) (sc_need s) (sc_folders s) (sc_zip s)))
    | OpenRead p =>
      let f := set_file_full_path p in
      do! r <- unpack fuel (match read_file d f with Some b => b | None => [] end) [] (d, None, sc_zip s);
      let '(d', desc, fs) := r in
      ZOk (NoError, (d', mkScene (match desc with Some x => x | None => sc_desc s end) (sc_specs s) f (sc_write s) true (sc_files s) (sc_buffers s) (sc_need s) (sc_folders s) fs))
    | Outside d' => ZOk (NoError, (d', s))
    end.
  Fixpoint steps (cs : list call) (w : disk * scene) : zres (list code * (disk * scene)) :=
    match cs with
    | [] => ZOk ([], w)
    | c :: r => do! (x, w') <- step c w; do! (xs, w'') <- steps r w'; ZOk (x :: xs, w'')
    end.

  (** [GetAttachedFileCountAt]: the path; empty if there is none. *)
  Definition attached (s : scene) (i : nat) : list N :=
    match nth_error (sc_zip s) i with
    | Some f => match file_path f with Some p => p | None => [] end
    | None => []
    end.
  (** CSceneObjImpl.cpp:426-444: the file from which the fixture of an object is read. *)
  Definition gdtf_of (d : disk) (spec : list N) : option (list N) :=
    read_file d (file_set work (match tx_find spec (T".gdtf") 0 false with Some _ => spec | None => spec ++ T".gdtf" end)).
End WithOracles.
