(** * The names of DMX channels while a mode is edited

    /repo/src/GDTFManager.cpp.  A channel and a logical channel have no name of their own: [GetName] forms
    one from the geometry and the attribute and keeps it in fName_AutoGenerated (5647-5663, 5948-5959).
    Nothing but [SetName] changes it afterwards, and only [AutoGenerateNames] (8047-8117) calls that.
    References to channels and functions (5632-5635, 5938-5941, 6451-6465) are made of these names:
    [OnPrintToFile] writes them for initial functions (5529), mode masters (6168, 6176), relations
    (7155-7156) and the values of macros (7611, 11814).

    Simplified: one mode; geometries and attributes are numbers with a name each; only the members the
    names depend on.  Calls for channels that do not exist do nothing; the interfaces hold pointers. *)
From Coq Require Import String List NArith ZArith Bool.
From Verif Require Import Bytes Txt StringModel NumModel LookupModel.
Import ListNotations.
Open Scope N_scope.
Open Scope list_scope.

(** fName and fAttribute of a function; fAttribute, fName_AutoGenerated and fFunctions of a logical channel;
    fGeomRef, fName_AutoGenerated and fLogicalChannels of a channel. *)
Record fn := mkFn { fn_name : list N; fn_attr : option nat }.
Record lc := mkLc { lc_attr : option nat; lc_kept : list N; lc_fns : list fn }.
Record ch := mkChan { ch_geo : option nat; ch_kept : list N; ch_lcs : list lc }.
Record mode := mkMode { geo_name : nat -> list N; attr_name : nat -> list N; chans : list ch }.
Definition named (f : nat -> list N) (o : option nat) : list N := match o with Some i => f i | None => [] end.

(** [GdtfDmxChannel::GetName], 5647-5663: undefined if the first logical channel has no attribute. *)
Definition chan_name (m : mode) (c : ch) : res (list N) :=
  if nlen (ch_kept c) =? 0 then
    match ch_lcs c with
    | [] => Ok (named (geo_name m) (ch_geo c) ++ T"_")
    | l :: _ => match lc_attr l with None => UB | Some a => Ok (named (geo_name m) (ch_geo c) ++ T"_" ++ attr_name m a) end
    end
  else Ok (ch_kept c).
(** [GdtfDmxLogicalChannel::GetName], 5948-5959. *)
Definition log_name (m : mode) (l : lc) : list N :=
  if nlen (lc_kept l) =? 0 then named (attr_name m) (lc_attr l) else lc_kept l.
(** [GdtfDmxChannelFunction::GetNodeReference], 6451-6463, without the reference of the logical channel; [i] is
    [GetNumberInParent], 6467-6481.  This name is not kept. *)
Definition fun_name (m : mode) (i : N) (f : fn) : list N :=
  if nlen (fn_name f) =? 0 then match fn_attr f with Some a => numbered (attr_name m a) i | None => [] end else fn_name f.

Fixpoint upd {A} (i : nat) (f : A -> A) (l : list A) : list A :=
  match l, i with [], _ => [] | x :: r, 0%nat => f x :: r | x :: r, S j => x :: upd j f r end.
Definition in_chan (c : nat) (f : ch -> ch) (m : mode) : mode := mkMode (geo_name m) (attr_name m) (upd c f (chans m)).
Definition in_log (c l : nat) (f : lc -> lc) : mode -> mode := in_chan c (fun x => mkChan (ch_geo x) (ch_kept x) (upd l f (ch_lcs x))).
Definition in_fun (c l i : nat) (f : fn -> fn) : mode -> mode := in_log c l (fun x => mkLc (lc_attr x) (lc_kept x) (upd i f (lc_fns x))).
Definition renamed (f : nat -> list N) (i : nat) (t : list N) : nat -> list N := fun j => if (j =? i)%nat then t else f j.

(** [GetNodeReference] of a channel, of a logical channel and of a function. *)
Inductive what := TheChannel | TheLogical (l : nat) | TheFunction (l i : nat).
Inductive op :=
| AddChannel (g : nat) | SetGeometry (c g : nat)                  (* CGdtfDmxMode.cpp:173-186, CGdtfDmxChannel.cpp:218-232 *)
| AddLogical (c a : nat) | SetLogicalAttr (c l a : nat)           (* CGdtfDmxChannel.cpp:291-304, CGdtfDmxLogicalChannel.cpp:75-90 *)
| AddFunction (c l : nat) (t : list N) (a : option nat)
| SetFunName (c l i : nat) (t : list N) | SetFunAttr (c l i a : nat)
| RenameGeo (g : nat) (t : list N) | RenameAttr (a : nat) (t : list N)
| Ask (c : nat) (w : what)
| Generate.                                                       (* done once, by reading: 8848 *)

(** What [Ask] answers and keeps. *)
Definition keep_chan (m : mode) (c : ch) : ch :=
  match chan_name m c with Ok t => mkChan (ch_geo c) t (ch_lcs c) | _ => c end.
Definition keep_log (m : mode) (l : lc) : lc := mkLc (lc_attr l) (log_name m l) (lc_fns l).
Definition answer (m : mode) (c : nat) (w : what) : res (list N) :=
  match nth_error (chans m) c with
  | None => Ok []
  | Some x =>
    do n <- chan_name m x;
    match w with
    | TheChannel => Ok n
    | TheLogical l => match nth_error (ch_lcs x) l with None => Ok [] | Some y => Ok (n ++ T"." ++ log_name m y) end
    | TheFunction l i =>
      match nth_error (ch_lcs x) l with
      | None => Ok []
      | Some y => match nth_error (lc_fns y) i with None => Ok [] | Some f => Ok (n ++ T"." ++ log_name m y ++ T"." ++ fun_name m (N.of_nat i + 1) f) end
      end
    end
  end.
Definition keep (m : mode) (c : nat) (w : what) : mode :=
  let m' := in_chan c (keep_chan m) m in
  match w with TheChannel => m' | TheLogical l | TheFunction l _ => in_log c l (keep_log m) m' end.

(** [AutoGenerateNames], 8047-8117. *)
Fixpoint gen_funs (m : mode) (fs : list fn) (number : N) : list fn :=
  match fs with
  | [] => []
  | f :: r =>
    if nlen (fn_name f) =? 0 then
      match fn_attr f with
      | None => f :: gen_funs m r number
      | Some a => mkFn (numbered (attr_name m a) number) (fn_attr f) :: gen_funs m r (number + 1)
      end
    else f :: gen_funs m r (number + 1)
  end.
Definition gen_log (m : mode) (l : lc) : lc :=
  match lc_attr l with None => l | Some a => mkLc (lc_attr l) (attr_name m a) (gen_funs m (lc_fns l) 1) end.
Fixpoint first_attr_of (ls : list lc) : option nat :=
  match ls with [] => None | l :: r => match lc_attr l with Some a => Some a | None => first_attr_of r end end.
Definition gen_chan (m : mode) (c : ch) : ch :=
  match ch_geo c with
  | None => c
  | Some g => mkChan (ch_geo c) (match first_attr_of (ch_lcs c) with Some a => geo_name m g ++ T"_" ++ attr_name m a | None => ch_kept c end) (map (gen_log m) (ch_lcs c))
  end.

Definition step (o : op) (m : mode) : res (mode * list (list N)) :=
  match o with
  | AddChannel g => Ok (mkMode (geo_name m) (attr_name m) (chans m ++ [mkChan (Some g) [] []]), [])
  | SetGeometry c g => Ok (in_chan c (fun x => mkChan (Some g) (ch_kept x) (ch_lcs x)) m, [])                   (* 5705-5708 *)
  | AddLogical c a => Ok (in_chan c (fun x => mkChan (ch_geo x) (ch_kept x) (ch_lcs x ++ [mkLc (Some a) [] []])) m, [])   (* 5504-5511 *)
  | SetLogicalAttr c l a => Ok (in_log c l (fun x => mkLc (Some a) (lc_kept x) (lc_fns x)) m, [])               (* 5784-5787 *)
  | AddFunction c l t a => Ok (in_log c l (fun x => mkLc (lc_attr x) (lc_kept x) (lc_fns x ++ [mkFn t a])) m, [])
  | SetFunName c l i t => Ok (in_fun c l i (fun x => mkFn t (fn_attr x)) m, [])
  | SetFunAttr c l i a => Ok (in_fun c l i (fun x => mkFn (fn_name x) (Some a)) m, [])
  | RenameGeo g t => Ok (mkMode (renamed (geo_name m) g t) (attr_name m) (chans m), [])
  | RenameAttr a t => Ok (mkMode (geo_name m) (renamed (attr_name m) a t) (chans m), [])
  | Ask c w => do t <- answer m c w; Ok (keep m c w, [t])
  | Generate => Ok (mkMode (geo_name m) (attr_name m) (map (gen_chan m) (chans m)), [])
  end.
Fixpoint run (os : list op) (m : mode) : res (mode * list (list N)) :=
  match os with
  | [] => Ok (m, [])
  | o :: r => do p <- step o m; do q <- run r (fst p); Ok (fst q, snd p ++ snd q)
  end.
