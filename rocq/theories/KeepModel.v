(** * The archive of a fixture: what is added, saved, read and saved again

    /repo/src/Implementation/CGdtfFixture.cpp: OpenForWrite (90-130), AddBufferToGdtfFile (164-181), Close (183-196),
    FromBufferInternal (2447-2472), RefreshBuffer (2474-2502); GDTFManager.cpp: ImportFromZip (7867-8012),
    ExportToFile (9858-9936); XmlFileHelper.cpp: GetResourceSubFolder (2273-2306).

    Simplified: the description of the fixture is the text it is written as ([fx_desc]); what is written for a
    description that was read is a function [again] (C89 and C92 say when it is the same), [blank] is what is written
    for a fixture without a description; a description that cannot be parsed counts as read, as in the code.  The
    copies of the resources in the working folder are left out (C20, C105), and so is what OpenForWrite with a path
    and Close do to the file on disk (C58).  AddFileToGdtfFile does the same with the content of a file. *)
From Coq Require Import String List NArith Bool.
From Verif Require Import Bytes Txt UtfModel StringModel ZipModel PathModel.
Import ListNotations.
Open Scope N_scope.
Open Scope list_scope.

(** [ERessourceType] *)
Inductive kind := ImageWheel | Model3DS | Model3DSLow | Model3DSHigh | ModelSVG | ModelSVGSide | ModelSVGFront
  | ModelGLTF | ModelGLTFLow | ModelGLTFHigh | RessoureFixture.
(** [GetResourceSubFolder], XmlFileHelper.cpp:2273-2306 *)
Definition sub_folder (k : kind) : list N :=
  match k with
  | ImageWheel => T"wheels/"
  | Model3DS => T"models/3ds/"
  | Model3DSLow => T"models/3ds_low/"
  | Model3DSHigh => T"models/3ds_high/"
  | ModelSVG => T"models/svg/"
  | ModelGLTF => T"models/gltf/"
  | ModelGLTFLow => T"models/gltf_low/"
  | ModelGLTFHigh => T"models/gltf_high/"
  | ModelSVGSide => T"models/svg_side/"
  | ModelSVGFront => T"models/svg_front/"
  | RessoureFixture => []
  end.

(** fFileBuffers, a std::map with the operator< of TXString: assignment to an element; the key keeps its first
    spelling. *)
Definition buffers := list (list N * list N).
Fixpoint put (k d : list N) (m : buffers) : buffers :=
  match m with
  | [] => [(k, d)]
  | (k', d') :: r => if txlt k k' then (k, d) :: m else if txlt k' k then (k', d') :: put k d r else (k', d) :: r
  end.
Record fixture := mkFx { fx_desc : list N; fx_files : buffers }.

(** GDTFManager.cpp:9906-9933: the name under which a buffer is saved; the last test that holds decides. *)
Definition mesh (k : list N) : option (list N) :=
  if ends_with k (T"glb") then Some (sub_folder ModelGLTF ++ k)
  else if ends_with k (T"svg") then Some (sub_folder ModelSVG ++ k)
  else if ends_with k (T"3ds") then Some (sub_folder Model3DS ++ k)
  else None.
Definition meshes (m : buffers) : buffers :=
  flat_map (fun e => match mesh (fst e) with Some n => [(n, snd e)] | None => [] end) m.
(** What [ExportToFile] adds, in this order. *)
Definition export (f : fixture) : buffers := (T"description.xml", fx_desc f) :: meshes (fx_files f).

(** The archive: its content and whether it is open for writing. *)
Definition zip := (zbytes * bool)%type.
Inductive code := NoError | Failed | InvalidArg.
Record state := mkSt { s_fix : option fixture; s_zip : option zip; s_added : buffers; s_buf : zbytes }.
Inductive call :=
| Open (desc : list N)                               (* OpenForWrite; desc: the new fixture *)
| Describe (desc : list N)                           (* any change of the fixture *)
| Add (k : kind) (name data : list N)                (* AddBufferToGdtfFile *)
| Close
| Refresh                                            (* RefreshBuffer *)
| Load (b : zbytes).                                 (* FromBuffer *)

Section WithOracles.
  Variable o : oracle.
  Variable clk : list N -> N * N.
  Variable again : list N -> list N.
  Variable blank : list N.
  Variable fuel : nat.

  (** [AddFile], ZIPFileImpl.cpp:473-486; its result is not looked at. *)
  Definition add1 (z : zip) (name data : list N) : zres zip :=
    if snd z then
      match to_bytes name with
      | None => ZThrow
      | Some b => do! (c, buf) <- add_file o false (clk name) (fst z) b data; ZOk (buf, true)
      end
    else ZOk z.
  Fixpoint adds (z : zip) (l : buffers) : zres zip :=
    match l with
    | [] => ZOk z
    | (n, d) :: r => do! z' <- add1 z n d; adds z' r
    end.

  (** One entry in [ImportFromZip], 7885-7918. *)
  Definition handle (st : option (list N) * buffers) (name data : list N) : zres (option (list N) * buffers) :=
    if beq_bytes name (T"description.xml") then ZOk (Some data, snd st)
    else match set_from_chars name with
         | None => ZThrow
         | Some u => ZOk (fst st, put (snd (gdtf_split u)) data (snd st))
         end.
  Fixpoint import (n : nat) (buf : zbytes) (cur : list N) (st : option (list N) * buffers) : zres (option (list N) * buffers) :=
    match n with
    | O => ZFuel
    | S n' =>
      do! x <- next_file buf cur;
      match x with
      | None => ZOk st
      | Some name =>
        do! g <- get_file o buf name;
        do! st' <- match g with Some d => handle st name d | None => ZOk st end;
        import n' buf name st'
      end
    end.

  Definition step (c : call) (s : state) : zres (code * state) :=
    match c with
    | Open d => ZOk (NoError, mkSt (Some (mkFx d [])) (Some ([], true)) [] (s_buf s))
    | Describe d =>
      match s_fix s with
      | Some f => ZOk (NoError, mkSt (Some (mkFx d (fx_files f))) (s_zip s) (s_added s) (s_buf s))
      | None => ZOk (Failed, s)
      end
    | Add k name data =>
      match s_fix s, s_zip s with
      | Some f, Some z =>
        let n := sub_folder k ++ name in
        do! z' <- add1 z n data;
        ZOk (NoError, mkSt (s_fix s) (Some z') (s_added s ++ [(n, data)]) (s_buf s))
      | _, _ => ZOk (Failed, s)
      end
    | Close =>
      match s_fix s, s_zip s with
      | Some f, Some z =>
        do! z' <- adds z (export f);
        ZOk (NoError, mkSt (s_fix s) (Some (fst z', false)) (s_added s) (fst z'))
      | _, _ => ZOk (Failed, s)
      end
    | Refresh =>
      match s_fix s with
      | Some f =>
        do! z <- adds ([], true) (export f ++ s_added s);
        ZOk (NoError, mkSt (s_fix s) (Some (fst z, false)) (s_added s) (fst z))
      | None => ZOk (Failed, s)
      end
    | Load b =>
      do! r <- import fuel b [] (None, []);
      match fst r with
      | Some x => ZOk (NoError, mkSt (Some (mkFx (again x) (snd r))) (s_zip s) [] b)
      | None => ZOk (InvalidArg, mkSt (Some (mkFx blank (snd r))) (s_zip s) [] b)
      end
    end.
  Fixpoint steps (cs : list call) (s : state) : zres (list code * state) :=
    match cs with
    | [] => ZOk ([], s)
    | c :: r => do! (x, s') <- step c s; do! (xs, s'') <- steps r s'; ZOk (x :: xs, s'')
    end.
End WithOracles.
(** A fresh object. *)
Definition fresh : state := mkSt None None [] [].
