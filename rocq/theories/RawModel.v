(** * Files on the disk: opening, reading, writing, deleting and duplicating them

    /repo/src/Wrapper/RawOSFileimpl.cpp (all of it); Wrapper/FileIdentifier.cpp: ExistsOnDisk (205-223), GetFileExtension
    (306-321), SetFileExtension (323-346), GetFileNameWithoutExtension (348-364), DeleteOnDisk (514-540), DuplicateOnDisk
    (587-615); Wrapper/FilingWrapper.cpp: TFileIdentifier (190-331); the branches for Linux.

    Simplified: the disk is that of MvrModel; whoever may look at a file may change it.  While a file is open nobody else
    uses it; nothing stays in the buffers of the C library.  A second [Open] leaves the first stream behind.  Paths are the
    same file if they are the same text. *)
From Coq Require Import String List NArith Bool.
From Verif Require Import Bytes Txt UtfModel StringModel ZipModel PathModel MvrModel.
Import ListNotations.
Open Scope N_scope.
Open Scope list_scope.

Inductive code := NoError | Failed | InvalidArg | NotInitialized.

(** ** The C library *)
Inductive how := Rb | Wb | Ab | WbPlus | AbPlus.
Record stream := mkStream { st_path : list N; st_how : how }.
Definition can_read (h : how) : bool := match h with Rb | WbPlus | AbPlus => true | _ => false end.
Definition can_write (h : how) : bool := match h with Rb => false | _ => true end.
Definition appends (h : how) : bool := match h with Ab | AbPlus => true | _ => false end.
Definition truncates (h : how) : bool := match h with Wb | WbPlus => true | _ => false end.
(** [fopen].  An identifier that is not set has no path; its empty path cannot be opened. *)
Definition fopen (d : disk) (f : file_id) (h : how) : option (disk * stream) :=
  match file_path f with
  | None => None
  | Some p =>
    if can_write h then
      if existsb (beq_bytes (get_full_path (PathModel.f_folder f))) (d_folders d) then
        Some (match content d p with Some _ => if truncates h then put_file d p [] else d | None => put_file d p [] end, mkStream p h)
      else None
    else match content d p with Some _ => Some (d, mkStream p h) | None => None end
  end.
Definition bytes_of (d : disk) (s : stream) : list N := match content d (st_path s) with Some x => x | None => [] end.
(** [fseek] with a [long]: what does not fit becomes negative and is refused. *)
Definition seeks (position : N) : bool := position mod 18446744073709551616 <? 9223372036854775808.
(** [fwrite] at a position: what lies between the end and the position becomes 0. *)
Definition fill (x : list N) (n : nat) : list N := x ++ repeat 0 (n - List.length x).
Definition put_at (x : list N) (n : nat) (data : list N) : list N :=
  match data with [] => x | _ => firstn n (fill x n) ++ data ++ skipn (n + List.length data) x end.
Definition fwrite (d : disk) (s : stream) (position : N) (data : list N) : disk * N :=
  if can_write (st_how s) then
    let x := bytes_of d s in
    let n := if appends (st_how s) then List.length x else N.to_nat position in
    (put_file d (st_path s) (put_at x n data), nlen data)
  else (d, 0).
Definition fread (d : disk) (s : stream) (position size : N) : list N :=
  if can_read (st_how s) then firstn (N.to_nat size) (skipn (N.to_nat position) (bytes_of d s)) else [].

(** ** CRawOSFileImpl: the disk and [fTheFile] *)
Definition state : Type := disk * option stream.
Definition opened (st : state) (r : option (disk * stream)) : code * state :=
  match r with Some (d, s) => (NoError, (d, Some s)) | None => (Failed, (fst st, None)) end.
Definition open (f : option file_id) (readable writable truncate : bool) (st : state) : code * state :=
  match f with
  | None => (InvalidArg, st)
  | Some f =>
    if readable && negb writable then opened st (fopen (fst st) f Rb)
    else if negb readable && writable then opened st (fopen (fst st) f (if truncate then Ab else Wb))
    else if readable && writable then opened st (fopen (fst st) f (if truncate then WbPlus else AbPlus))
    else (match snd st with Some _ => NoError | None => Failed end, st)
  end.
Definition close (st : state) : code * state := (NoError, (fst st, None)).
(** [GetFileSize] with [outValue]; [None] if it is not set. *)
Definition size (st : state) : code * option N :=
  match snd st with None => (NotInitialized, None) | Some s => (NoError, Some (nlen (bytes_of (fst st) s))) end.
(** [Read]: the bytes put into the buffer; [inoutSize] becomes their number. *)
Definition read (position n : N) (st : state) : code * list N :=
  match snd st with
  | None => (NotInitialized, [])
  | Some s => if seeks position then (NoError, fread (fst st) s position n) else (Failed, [])
  end.
Definition write (position : N) (data : list N) (st : state) : code * state :=
  match snd st with
  | None => (NotInitialized, st)
  | Some s =>
    if seeks position then
      let (d, written) := fwrite (fst st) s position data in
      (if written =? nlen data then NoError else Failed, (d, Some s))
    else (Failed, st)
  end.

(** ** CFileIdentifier and TFileIdentifier *)
(** 205-223, FilingWrapper.cpp:284-295; the code and [outValue]. *)
Definition exists_on_disk (d : disk) (f : file_id) : code * option bool :=
  match file_path f with
  | None => (NotInitialized, None)
  | Some p => (NoError, Some (match content d p with Some _ => true | None => false end))
  end.
(** [remove]: 0 if the file is gone. *)
Definition remove (d : disk) (p : list N) : disk * bool :=
  match content d p with
  | Some _ => (mkDisk (filter (fun e => negb (beq_bytes (fst e) p)) (d_files d)) (d_folders d), true)
  | None => (d, false)
  end.
(** FilingWrapper.cpp:297-301: [remove(path) != 0]. *)
Definition t_delete (d : disk) (p : list N) : disk * bool := let (d', ok) := remove d p in (d', negb ok).
(** 514-540 *)
Definition delete_on_disk (d : disk) (f : file_id) : code * disk :=
  match file_path f with
  | None => (NotInitialized, d)
  | Some p =>
    match content d p with
    | Some _ => let (d', r) := t_delete d p in (if r then NoError else Failed, d')
    | None => (NoError, d)
    end
  end.
(** FilingWrapper.cpp:303-331: the destination is opened, and so emptied, before the source is read; streams that could not
    be opened give and take nothing.  [folder]: whether the folder of the destination exists. *)
Definition t_duplicate (d : disk) (source dest : list N) (folder : bool) : disk * bool :=
  let d1 := if folder then put_file d dest [] else d in
  let data := match content d source with Some _ => match content d1 source with Some x => x | None => [] end | None => [] end in
  (if folder then put_file d1 dest data else d1, true).
(** 587-615.  The overwrite flag is handed on and not looked at.  A destination that is not set has an empty path. *)
Definition duplicate_on_disk (d : disk) (f : file_id) (dest : option file_id) (overwrite : bool) : code * disk :=
  match file_path f with
  | None => (NotInitialized, d)
  | Some p =>
    match dest with
    | None => (InvalidArg, d)
    | Some g =>
      match file_path g with
      | None => (NoError, d)
      | Some q =>
        let (d', r) := t_duplicate d p q (existsb (beq_bytes (get_full_path (PathModel.f_folder g))) (d_folders d)) in
        (if r then NoError else Failed, d')
      end
    end
  end.

(** ** Extensions *)
(** 306-321, FilingWrapper.cpp:218-231: looked for in the whole path. *)
Definition get_extension (f : file_id) : code * option (list N) :=
  match file_path f with
  | None => (NotInitialized, None)
  | Some p => (NoError, Some (match tx_rfind_ch p 46 npos false with None => [] | Some at_ => mid p (at_ + 1) npos end))
  end.
(** 323-346 *)
Definition set_extension (f : file_id) (e : list N) : code * file_id :=
  match file_path f with
  | None => (NotInitialized, f)
  | Some _ =>
    match e with
    | [] => (InvalidArg, f)
    | c :: _ =>
      let name := match tx_rfind_ch (PathModel.f_name f) 46 npos false with Some at_ => left (PathModel.f_name f) at_ | None => PathModel.f_name f end in
      (NoError, mkFile (PathModel.f_folder f) (name ++ [46] ++ (if c =? 46 then [] else e)))
    end
  end.
(** 348-364, FilingWrapper.cpp:233-264.  A negative length is taken as a large one. *)
Definition get_name_without_extension (f : file_id) : code * option (list N) :=
  match file_path f with
  | None => (NotInitialized, None)
  | Some p =>
    let dot := match tx_rfind_ch p 46 npos false with Some a => a | None => nlen p end in
    let slash := match tx_rfind_ch p 47 npos false with Some a => a + 1 | None => 0 end in
    (NoError, Some (convert_name (mid p slash (if dot <? slash then 18446744073709551616 + dot - slash else dot - slash))))
  end.
