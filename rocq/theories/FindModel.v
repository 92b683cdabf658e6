(** Model of how the files of a fixture are found: the functions of GDTFManager.cpp that give the full paths of models, images of
    wheels and thumbnails, on the model of paths (PathModel) and of unpacking (C20, C105).

    Simplified: the disk is a list of paths; what was in the working folder before is gone (PrepareWorkingFolder,
    GDTFManager.cpp:7837-7865); every file can be written. *)
From Coq Require Import String List NArith Bool.
From Verif Require Import Txt StringModel PathModel KeepModel.
Import ListNotations.
Open Scope N_scope.
Open Scope list_scope.

(** The functions: GDTFManager.cpp:1728-1964 (models), 1235-1257 (images of wheels), 10309-10324 (thumbnails). *)
Inductive getter := G3DS | G3DSLow | G3DSHigh | GSVG | GSVGSide | GSVGFront | GGLTF | GGLTFLow | GGLTFHigh | GGobo | GThumbPNG | GThumbSVG.

(** The folder in the working folder; the thumbnails are in the working folder itself. *)
Definition folder_name (g : getter) : list N :=
  match g with
  | G3DS => T"models3ds" | G3DSLow => T"models3ds_low" | G3DSHigh => T"models3ds_high"
  | GSVG => T"modelssvg" | GSVGSide => T"modelssvg_side" | GSVGFront => T"modelssvg_front"
  | GGLTF => T"modelsgltf" | GGLTFLow => T"modelsgltf_low" | GGLTFHigh => T"modelsgltf_high"
  | GGobo => T"wheels" | GThumbPNG | GThumbSVG => []
  end.
Definition folder_of (w : list (list N)) (g : getter) : list (list N) :=
  match g with GThumbPNG | GThumbSVG => w | _ => folder_set w (folder_name g) end.

(** The endings that are tried, in this order. *)
Definition endings (g : getter) : list (list N) :=
  match g with
  | G3DS | G3DSLow | G3DSHigh => [T".3ds"]
  | GSVG | GSVGSide | GSVGFront | GThumbSVG => [T".svg"]
  | GGLTF | GGLTFLow | GGLTFHigh => [T".glb"; T".gltf"]
  | GGobo | GThumbPNG => [T".png"]
  end.

(** [ExistsOnDisk] and [GetFileFullPath] (FileIdentifier.cpp:205-238). *)
Definition on_disk (disk : list (list N)) (p : list N) : bool := if in_dec (list_eq_dec N.eq_dec) p disk then true else false.
Fixpoint try_endings (disk : list (list N)) (folder : list (list N)) (name : list N) (es : list (list N)) : list N :=
  match es with
  | [] => []
  | e :: es' =>
    match file_path (file_set folder (name ++ e)) with
    | Some p => if on_disk disk p then p else try_endings disk folder name es'
    | None => try_endings disk folder name es'
    end
  end.
(** What the function gives: the path, or nothing. *)
Definition get (disk : list (list N)) (w : list (list N)) (g : getter) (name : list N) : list N :=
  try_endings disk (folder_of w g) name (endings g).

(** The files after the entries of the archive are unpacked ([ImportFromZip], GDTFManager.cpp:7880-7945). *)
Definition unpack (w : list (list N)) (entries : list (list N)) : list (list N) :=
  flat_map (fun n => match gdtf_target w n with Some p => [p] | None => [] end) entries.

(** The functions return a reference to a member of the object, in which they store the path: fFullPath3DS, fFullPathSVG,
    fFullPathGLTF, fGoboFile, fTumbnailFullPath_PNG, fTumbnailFullPath_SVG. *)
Inductive member := M3DS | MSVG | MGLTF | MGobo | MPng | MSvgThumb.
Definition member_of (g : getter) : member :=
  match g with
  | G3DS | G3DSLow | G3DSHigh => M3DS
  | GSVG | GSVGSide | GSVGFront => MSVG
  | GGLTF | GGLTFLow | GGLTFHigh => MGLTF
  | GGobo => MGobo | GThumbPNG => MPng | GThumbSVG => MSvgThumb
  end.
Definition member_dec (a b : member) : {a = b} + {a <> b}.
Proof. decide equality. Defined.
Definition members := member -> list N.
Definition call (disk w : list (list N)) (name : list N) (m : members) (g : getter) : members :=
  fun x => if member_dec x (member_of g) then get disk w g name else m x.
