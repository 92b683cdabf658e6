(** What the theorems about the objects of a fixture say: values that fit an attribute, values that
    are the same for a user, objects that can be written. *)
From Coq Require Import String List NArith ZArith Bool.
From Verif Require Import Bytes Txt UtfSpec NumModel FloatModel FloatProps ConvModel ConvProps ConvProps2 UuidModel UuidProps
  EnumModel VecModel VecProps DmxModel DmxValProps StringSpec XmlModel ObjModel.
Import ListNotations.
Open Scope N_scope.

(** ** Values *)
(** Text that is well-formed UTF-16 without zero characters. *)
Definition good (s : list N) : Prop := exists cs, s = enc16 cs /\ Forall (fun c => scalar c /\ c <> 0) cs.
(** The values an attribute of kind [k] can hold; [reso]: the resolution of the DMX channel. *)
Definition val_ok (k : conv) (reso : N) (v : val) : Prop :=
  match k, v with
  | KText, VTxt s => good s
  | KDouble, VDbl x => valid x
  | KSint32, VInt z => sint32 z
  | KBreak, VInt z => sint32 z
  | KUint32, VNat n => n < 2147483648
  | KSize, VNat n => n < 2147483648
  | KUint8, VNat n => n < 256
  | KHex, VNat n => n <= 65535
  | KUuid, VUuid u => uuid_ok u
  | KColor, VVec c => each valid c
  | KVec, VVec c => each valid c
  | KColors, VVecs l => Forall (each valid) l
  | KMatrix, VMat m => valid_mat m
  | KRotation, VMat m => valid_mat m /\ mO m = (zero, zero, zero)
  | KPoint, VPt x y => valid x /\ valid y
  | KDate, VDate d => time_ok d
  | KBool, VFlag _ => True
  | KEnum t, VNat n => In n (et_values t)
  | KAddress, VNat a => 1 <= a /\ a < 65536
  | KDmx, VDmx none v => none = false /\ v <= top reso
  | KHigh, VDmx none v => if none then v = 0 else v <= top reso
  | KOffset, VOff o => offsets_ok o \/ o = (0, 0, 0, 0)
  | _, _ => False
  end.
(** The same value; numbers that went through text may differ by a millionth ([VecProps.kept]). *)
Definition same_val (v v' : val) : Prop :=
  v = v' \/
  match v, v' with
  | VDbl x, VDbl y => kept x y
  | VVec a, VVec b => kept3 a b
  | VVecs a, VVecs b => Forall2 kept3 a b
  | VMat a, VMat b => kept_mat a b
  | VPt x y, VPt x' y' => kept x x' /\ kept y y'
  | _, _ => False
  end.
Definition same_env (vs vs' : env) : Prop := forall g, same_val (get g vs) (get g vs').

(** ** Members *)
(** The attribute stands for the member; otherwise it is not written, or written empty. *)
Definition shown (vs : env) (e : wentry) : bool :=
  match w_when e with
  | Always | Deref => true
  | IfText g => negb (no_text g vs)
  | IfFlag g | IfFlagElseEmpty g => flag g vs
  | IfEnum g n => kind_is g n vs
  | IfNonZero g => negb (is_zero (get g vs))
  end.
Definition flag_of (h : how) : list string :=
  match h with PresentTo g | OkTo g | OkBoth g => [g] | _ => [] end.
Definition flags (c : cls) : list string := flat_map (fun e => flag_of (r_how e)) (reads c).
(** A pointer that is written unchecked is not null; a number that is left out if it is 0 does not look
    like 0; a name that is read with "_" for "/" has no "/". *)
Definition looks_zero (v : val) : Prop :=
  match v with VDbl x => fl_text point x = fl_text point zero \/ fl_text point x = fl_text point (Fin true 0) | _ => False end.
Definition extra_ok (c : cls) (vs : env) (e : wentry) : Prop :=
  match w_when e with
  | Deref => no_text (w_field e) vs = false
  | IfNonZero g => ~ looks_zero (get g vs)
  | _ => True
  end /\
  forall r, In r (reads c) -> r_how r = NoSlash -> r_field r = w_field e ->
    match get (w_field e) vs with VTxt s => ~ In 47 s | _ => True end.
(** Members that can be written and are found again: an attribute that is shown holds a value of its
    kind, everything else is as constructed. *)
Definition attrs_ok (c : cls) (ctx : offsets) (vs : env) : Prop :=
  (forall e, In e (writes c) ->
    if shown vs e then val_ok (w_conv e) (reso_of c ctx vs) (get (w_field e) vs) /\ extra_ok c vs e
    else get (w_field e) vs = get (w_field e) (fields c)) /\
  (forall e r g, In e (writes c) -> In r (reads c) -> w_attr e = r_attr r -> In g (flag_of (r_how r)) ->
    get g vs = VFlag (shown vs e)) /\
  (forall g, ~ In g (map w_field (writes c)) -> ~ In g (flags c) -> get g vs = get g (fields c)).

(** ** Objects *)
Definition class (o : obj) : cls := let (c, _, _) := o in c.
Definition members (o : obj) : env := let (_, vs, _) := o in vs.
Definition children (o : obj) : list obj := let (_, _, ks) := o in ks.
Definition dmx_start (g : string) (o : obj) : N := as_dmx (get g (members o)).
Fixpoint increasing (l : list N) : Prop :=
  match l with a :: (b :: _) as r => a < b /\ increasing r | _ => True end.
(** The channel functions of a logical channel start at 0; the sets of a channel function do not overlap and, in a
    virtual channel, leave its last value free. *)
Definition post_ok (p : post) (ctx : offsets) (l : list obj) : Prop :=
  match p with
  | NoPost => True
  | FirstAtZero => match l with o :: _ => dmx_start "fAdressStart" o = 0 | [] => True end
  | AddSets => increasing (map (dmx_start "fDmxStart") l)
      /\ (is_virtual ctx = true -> Forall (fun o => dmx_start "fDmxStart" o < channel_max ctx) l)
  end.
Definition in_slot (ctx : offsets) (s : slot) (l : list obj) : Prop :=
  Forall (fun o => In (class o) (map snd (s_kinds s))) l /\
  match s_mode s with
  | All => True
  | Opt => (List.length l <= 1)%nat
  | One => List.length l = 1%nat
  | Ignored => l = map (fun k => fresh (snd k)) (s_kinds s)
  end /\ post_ok (s_post s) ctx l.
Inductive fits (ctx : offsets) : list slot -> list obj -> Prop :=
| fits_nil : fits ctx [] []
| fits_cons s ss l ks : in_slot ctx s l -> fits ctx ss ks -> fits ctx (s :: ss) (l ++ ks).
Inductive obj_ok : offsets -> obj -> Prop :=
| obj_ok_i ctx c vs ks : attrs_ok c ctx vs -> fits (own_offsets c ctx vs) (slots c) ks ->
    Forall (obj_ok (own_offsets c ctx vs)) ks -> obj_ok ctx (Obj c vs ks).
Inductive same_obj : obj -> obj -> Prop :=
| same_obj_i c vs vs' ks ks' : same_env vs vs' -> Forall2 same_obj ks ks' -> same_obj (Obj c vs ks) (Obj c vs' ks').

(** ** Errors *)
(** Which attributes stand in the file. *)
Definition present (vs : env) (e : wentry) : bool :=
  shown vs e || match w_when e with IfFlagElseEmpty _ => true | _ => false end.
Definition written_names (c : cls) (vs : env) : list (list N) := map w_attr (filter (present vs) (writes c)).
(** Names of attributes are compared without regard to case. *)
Definition named (a : list N) (l : list (list N)) : bool := existsb (fun b => eqb_bytes (map ascii_lower a) (map ascii_lower b)) l.
(** What reading an object that was written reports: attributes that are required and not written, and attributes
    that are written and neither required nor optional ([attribute_lists]). *)
Definition own_reports (c : cls) (vs : env) : N :=
  match attribute_lists c vs with
  | None => 0
  | Some (needed, optional) =>
    let names := written_names c vs in
    nlen (filter (fun a => negb (named a names)) needed) + nlen (filter (fun a => negb (named a (needed ++ optional))) names)
  end.
Fixpoint reports (o : obj) : N :=
  match o with Obj c vs ks => own_reports c vs + fold_right (fun k n => reports k + n) 0 ks end.

(** ** Files *)
(** No text has a CR; how deep objects are nested. *)
Inductive no_cr_obj : obj -> Prop :=
| no_cr_i c vs ks : (forall g s, get g vs = VTxt s -> ~ In 13 s) -> Forall no_cr_obj ks -> no_cr_obj (Obj c vs ks).
Fixpoint levels (o : obj) : nat :=
  match o with
  | Obj _ _ [] => 0
  | Obj _ _ ks => S (fold_right (fun k n => Nat.max (levels k) n) O ks)
  end.
