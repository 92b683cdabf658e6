(** Names and paths: [GdtfUtil]/[SystemUtil] (Utility.cpp), [CFolderIdentifier] and [CFileIdentifier]
    (Wrapper/FolderIdentifier.cpp, Wrapper/FileIdentifier.cpp), and the places a .gdtf or .mvr
    archive is unpacked to (GDTFManager.cpp, SceneDataExchange.cpp).  Linux branches only.

    Texts are lists of UTF-16 units as in StringModel.  [int] positions are taken to be exact, i.e.
    texts are shorter than 2^31 units.  An identifier whose [Set] fails is left empty (they are all
    freshly created). *)
From Coq Require Import String List NArith ZArith Lia Bool.
From Coq Require Import ZifyN ZifyNat ZifyBool.
From Verif Require Import Bytes Txt StringModel.
Import ListNotations.
Open Scope N_scope.

(** [Replace] with a non-empty old text, which always ends (PathProofs.repl_ok, C35). *)
Definition repl (s old new : list N) : list N :=
  match replace (S (List.length s)) s old new false with Done r => r | _ => s end.

(** ** Utility.cpp *)
(** [IsValidNameChar], Utility.cpp:86-95. *)
Definition is_valid_name_char (c : N) : bool :=
  (c =? 32) || ((34 <=? c) && (c <=? 62)) || (c =? 64) || ((65 <=? c) && (c <=? 90))
  || ((95 <=? c) && (c <=? 96)) || ((97 <=? c) && (c <=? 122)).

(** [DoesNameContainInvalidChars], Utility.cpp:97-108: the loop over [i]; a rejected unit is deleted
    and the position stays. *)
Fixpoint sanitize_loop (fuel : nat) (name : list N) (i : N) : outcome (list N) :=
  match fuel with
  | O => NoEnd
  | S f =>
    if i <? nlen name then
      if is_valid_name_char (nth (N.to_nat i) name 0) then sanitize_loop f name (i + 1)
      else sanitize_loop f (delete name i 1) i
    else Done name
  end.
Definition sanitize (name : list N) : outcome (list N) := sanitize_loop (S (List.length name)) name 0.

(** [ExtractFolderFromPath], Utility.cpp:63-84 (kSeperator is '/', Utility.h:9): returns the folder
    and the changed path. *)
Fixpoint extract_loop (fuel : nat) (folder path : list N) : outcome (list N * list N) :=
  match fuel with
  | O => NoEnd
  | S f =>
    match tx_find_ch path 47 0 false with
    | Some pos =>
      if 0 <? pos then
        extract_loop f (folder ++ firstn (N.to_nat (pos + 1)) path) (delete path 0 (pos + 1))
      else Done (folder, path)
    | None => Done (folder, path)
    end
  end.
Definition extract_folder (path : list N) : outcome (list N * list N) :=
  extract_loop (S (List.length path)) [] path.

(** ** Folder and file identifiers *)
(** [ValidateFoldername]/[ValidateFilename], FolderIdentifier.cpp:1003-1023, FileIdentifier.cpp:679-700. *)
Definition validate_name (s : list N) : list N := repl (repl s [47] (T"%5C")) [58] (T"%3A").
(** [ConvertFoldername]/[ConvertFilename], FolderIdentifier.cpp:1026-1040, FileIdentifier.cpp:702-717. *)
Definition convert_name (s : list N) : list N :=
  repl (repl (repl (repl (repl (repl (repl (repl s
    (T"%2F") [92]) (T"%2A") [42]) (T"%3F") [63]) (T"%22") [34]) (T"%3C") [60]) (T"%3E") [62])
    (T"%7C") [124]) (T"%5C") [58].

(** Which separator a path uses: FolderIdentifier.cpp:50-71, FileIdentifier.cpp:45-66. *)
Definition is_win_path (s : list N) : bool :=
  match tx_find_ch s 92 0 false, tx_find_ch s 47 0 false with
  | None, Some _ => false
  | Some a, Some b => negb (b <? a)
  | _, None => true
  end.

(** Cutting off everything before the first separator, FolderIdentifier.cpp:75-90; the first unit is
    converted to [char]. *)
Definition cut_start (s : list N) : list N :=
  let first := nth 0 s 0 mod 256 in
  if (first =? 47) || (first =? 92) || (first =? 58) then s
  else
    let at0 := match tx_find_ch s 92 0 false, tx_find_ch s 47 0 false with
               | None, b => b
               | Some a, Some b => if b <? a then Some b else Some a
               | Some a, None => Some a
               end in
    match at0 with Some p => mid s p npos | None => s end.

(** The loop over the parts, FolderIdentifier.cpp:124-157. *)
Fixpoint parts_loop (fuel : nat) (win : bool) (s : list N) (start : N) (parts : list (list N))
  : outcome (list (list N)) :=
  match fuel with
  | O => NoEnd
  | S f =>
    match tx_find_ch s (if win then 92 else 47) start false with
    | None => Done parts
    | Some at_ =>
      let part := mid s start (at_ - start) in
      let parts := match part with
                   | [] => parts
                   | _ :: _ => parts ++ [validate_name (if win then part else repl part [58] [47])]
                   end in
      parts_loop f win s (at_ + 1) parts
    end
  end.

(** Resolving "..", FolderIdentifier.cpp:159-174; [pop_back] on a non-empty vector. *)
Definition add_part (h : list (list N)) (part : list N) : list (list N) :=
  if txeq part (T"..") then removelast h else h ++ [part].

(** [SetFullPath], FolderIdentifier.cpp:38-179: the folder hierarchy; an empty path leaves it empty. *)
Definition set_full_path (fullPath : list N) : list (list N) :=
  match fullPath with
  | [] => []
  | _ :: _ =>
    let win := is_win_path fullPath in
    let p := cut_start fullPath ++ [if win then 92 else 47] in
    let h0 := if negb win && (nth 0 p 0 =? 47) then [[]] else [] in
    match parts_loop (S (List.length p)) win p 0 [] with
    | Done parts => fold_left add_part parts h0
    | _ => h0
    end
  end.

(** [GetFullPath], FolderIdentifier.cpp:181-210. *)
Definition get_full_path (h : list (list N)) : list N :=
  47 :: flat_map (fun part => match convert_name part with [] => [] | q => q ++ [47] end) h.

(** [Set(parent, name)], FolderIdentifier.cpp:267-292. *)
Definition folder_set (parent : list (list N)) (name : list N) : list (list N) :=
  match name, parent with
  | [], _ => []
  | _, [] => []
  | _ :: _, _ :: _ => set_full_path (get_full_path parent ++ name)
  end.

Record file_id := mkFile { f_folder : list (list N); f_name : list N }.
Definition no_file : file_id := mkFile [] [].

(** [SetFileFullPath], FileIdentifier.cpp:35-97. *)
Definition set_file_full_path (p : list N) : file_id :=
  let win := is_win_path p in
  match tx_rfind_ch p (if win then 92 else 47) npos false with
  | Some at_ =>
    let fullPath := left p at_ in
    let name := mid p (at_ + 1) npos in
    mkFile (set_full_path (match fullPath with [] => if win then [] else [47] | _ => fullPath end))
           (validate_name (if win then name else repl name [58] [47]))
  | None => mkFile (set_full_path p) []
  end.

(** Leading separators removed, FileIdentifier.cpp:166-169. *)
Fixpoint strip_slashes (fuel : nat) (s : list N) : list N :=
  match fuel with
  | O => s
  | S f => match s with c :: _ => if c =? 47 then strip_slashes f (mid s 1 npos) else s | [] => s end
  end.

(** [Set(folder, name)], FileIdentifier.cpp:145-178: nothing for an empty name or folder. *)
Definition file_set (folder : list (list N)) (name : list N) : file_id :=
  match name, folder with
  | [], _ => no_file
  | _, [] => no_file
  | _ :: _, _ :: _ => set_file_full_path (get_full_path folder ++ strip_slashes (List.length name) name)
  end.

(** [GetFileFullPath(outPath)], FileIdentifier.cpp:24-33, 225-238: fails unless folder and name are
    set (193-202). *)
Definition file_path (f : file_id) : option (list N) :=
  match f_folder f, f_name f with
  | _ :: _, _ :: _ => Some (get_full_path (f_folder f) ++ convert_name (f_name f))
  | _, _ => None
  end.

(** ** Unpacking *)
(** [SceneDataExchange::ReadFromFile], SceneDataExchange.cpp:3738-3773: the path that [WriteToFile]
    (XmlFileHelper.cpp:2565-2584, [CRawOSFileImpl::Open] with "wb+") opens for the archive entry
    [name]; [None]: nothing is opened. *)
Definition mvr_target (work : list (list N)) (name : list N) : option (list N) :=
  if equal name (T"GeneralSceneDescription.xml") then None else file_path (file_set work name).

(** [GdtfFixture::ImportFromZip], GDTFManager.cpp:7880-7945: the folder created for an entry and the
    path opened for it. *)
Definition gdtf_split (name : list N) : list N * list N :=
  match extract_folder (repl name [92] [47]) with
  | Done (folder, file) => (47 :: repl folder [47] [], file)
  | _ => ([], [])
  end.
Definition gdtf_folder (work : list (list N)) (name : list N) : list (list N) :=
  folder_set work (fst (gdtf_split name)).
Definition gdtf_target (work : list (list N)) (name : list N) : option (list N) :=
  if equal name (T"description.xml") then None
  else file_path (file_set (gdtf_folder work name) (snd (gdtf_split name))).
