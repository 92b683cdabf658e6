(** What the theorems about the scene of an MVR file say: scenes that can be written, scenes that are the same
    for a user. *)
From Coq Require Import String List NArith ZArith Bool.
From Verif Require Import Bytes Txt NumModel FloatModel FloatProps ConvModel UuidModel UuidProps EnumModel VecModel VecProps
  XmlModel XmlSpec ObjModel ObjSpec SceneModel.
Import ListNotations.
Open Scope N_scope.

(** ** Members *)
Definition uuid_like (s : list N) : Prop := exists u, uuid_ok u /\ s = uuid_text false u.
(** The values a member can hold. *)
Definition sval_ok (k : sconv) (v : val) : Prop :=
  match k, v with
  | SC c, _ => val_ok c 0 v
  | SGuid, VUuid u => uuid_ok u
  | SMulti, VTxt s => s = [] \/ uuid_like s
  | SMatrix, VMat m => valid_mat m
  | SSint8, VInt z => (-128 <= z <= 127)%Z
  | SCustom, VNat n => n < 2147483648
  | SNet, VTxt s => good s /\ s <> []
  | _, _ => False
  end.
(** The members that are written, how, and when. *)
Definition entry (it : witem) : list (string * sconv * swhen) :=
  match it with WAttr _ f k w | WNode _ f k w => [(f, k, w)] | WOwn f k => [(f, k, WAlways)] | WCommand | WSlot _ _ _ _ => [] end.
(** A custom command: its function has no "/percent" and, unless it is a percentage, no comma. *)
Definition command_ok (vs : env) : Prop :=
  exists f p x, get "fChannelFunction" vs = VTxt f /\ get "fIsPercentage" vs = VFlag p /\ get "fValue" vs = VDbl x /\
    good f /\ nlen f < 2 ^ 62 /\ valid x /\ ~ within T"/percent" f /\ (p = false -> ~ In 44 f).
(** Members that can be written and are found again; a matrix that is left out is the identity. *)
Definition members_ok (c : scls) (vs : env) : Prop :=
  (forall f k w, In (f, k, w) (flat_map entry (swrites c)) ->
    sval_ok k (get f vs) /\ (w = WIfMatrix -> SceneModel.written w (get f vs) = false -> get f vs = VMat identity)) /\
  (In WCommand (swrites c) -> command_ok vs) /\
  (forall g, ~ In g (map fst (sfields c)) -> get g vs = VUnset).

(** ** Objects *)
Definition in_rslot (s : rslot) (l : list sobj) : Prop :=
  Forall (fun o => In (sclass o) (map snd (rs_kinds s))) l /\
  match rs_mode s with
  | RAll | RAllUuid => True
  | ROpt => (List.length l <= 1)%nat
  | ROne => List.length l = 1%nat
  end.
(** A group has children, a mapping definition a source, a rotation belongs to a gobo. *)
Definition shape_ok (c : scls) (vs : env) (kss : list (list sobj)) : Prop :=
  match c with
  | SGroup => nth 5 kss [] <> []
  | SMapDef => nth 0 kss [] <> []
  | SGobo => get "fGobo" vs = VTxt [] -> get "fGoboRotation" vs = VDbl zero
  | _ => True
  end.
Inductive sobj_ok : sobj -> Prop :=
| sobj_ok_i c vs kss : members_ok c vs -> Forall2 in_rslot (sslots c) kss -> shape_ok c vs kss ->
    Forall (Forall sobj_ok) kss -> sobj_ok (SObj c vs kss).
Inductive same_sobj : sobj -> sobj -> Prop :=
| same_sobj_i c vs vs' kss kss' : same_env vs vs' -> Forall2 (Forall2 same_sobj) kss kss' ->
    same_sobj (SObj c vs kss) (SObj c vs' kss').

(** ** References *)
Inductive child : sobj -> sobj -> Prop :=
| child_i c vs kss ks o : In ks kss -> In o ks -> child o (SObj c vs kss).
Inductive inside : sobj -> sobj -> Prop :=
| in_self o : inside o o
| in_child_of o k p : inside o k -> child k p -> inside o p.
Definition within_any (o : sobj) (l : list sobj) : Prop := exists p, In p l /\ inside o p.
Definition guid_is (o : sobj) (s : list N) : Prop := exists u, get "fGuid" (smembers o) = VUuid u /\ s = uuid_text false u.
Definition refers (f : string) (o : sobj) (l : sobj -> Prop) : Prop :=
  forall s, get f (smembers o) = VTxt s -> s = [] \/ exists p, l p /\ guid_is p s.
Definition no_reference (f : string) (o : sobj) : Prop := forall s, get f (smembers o) = VTxt s -> s = [].
(** The course of a depth-first walk: an object is met, then its children, then it is left. *)
Inductive event := Met (o : sobj) | Left (o : sobj).
Fixpoint walk (o : sobj) : list event :=
  match o with SObj c vs kss => Met o :: flat_map (flat_map walk) kss ++ [Left o] end.
(** References that reading can resolve. *)
Record refs_ok (s : scene) : Prop := mkRefs {
  (** classes are not written *)
  no_class : forall o, within_any o (sc_layers s ++ sc_maps s ++ sc_positions s ++ sc_symdefs s) -> no_reference "fClass" o;
  focus_points : forall o, within_any o (sc_layers s) ->
    refers "fFocusPoint" o (fun p => sclass p = SFocusPoint /\ within_any p (sc_layers s));
  positions : forall o, within_any o (sc_layers s) -> refers "fPosition" o (fun p => In p (sc_positions s));
  (** a multipatch parent is left before the object is met *)
  parents : forall before o after, flat_map walk (sc_layers s) = before ++ Met o :: after ->
    refers "fMultipatchObj" o (fun p => in_scene (sclass p) = true /\ In (Left p) before);
  no_parents : forall o, within_any o (sc_maps s ++ sc_positions s ++ sc_symdefs s) -> no_reference "fMultipatchObj" o;
  (** symbols: in a symbol definition and among the geometries of an object that is no layer, group or geometry *)
  symbols_found : forall o p, within_any p (sc_layers s ++ sc_symdefs s) -> child o p -> sclass o = SSymbol ->
    if in_scene (sclass p) || match sclass p with SSymdef => true | _ => false end
    then exists t d, get "fSymDef" (smembers o) = VTxt t /\ In d (sc_symdefs s) /\ guid_is d t
    else no_reference "fSymDef" o;
  definitions : NoDup (map (fun d => get "fGuid" (smembers d)) (sc_symdefs s));
  some_object : (exists o, within_any o (sc_layers s) /\ in_scene (sclass o) = true) \/
    forall d o, In d (sc_symdefs s) -> child o d -> sclass o <> SSymbol }.
Definition of_kind (c : scls) (l : list sobj) : Prop := Forall (fun o => sclass o = c /\ sobj_ok o) l.
Definition scene_ok (s : scene) : Prop :=
  good (sc_provider s) /\ good (sc_version s) /\ of_kind SProvider (sc_data s) /\ of_kind SLayer (sc_layers s) /\
  of_kind SMapDef (sc_maps s) /\ of_kind SPosition (sc_positions s) /\ of_kind SSymdef (sc_symdefs s) /\ refs_ok s.
(** Provider and version are not read, classes not written. *)
Definition same_scene (s s' : scene) : Prop :=
  Forall2 same_sobj (sc_data s) (sc_data s') /\ Forall2 same_sobj (sc_layers s) (sc_layers s') /\
  Forall2 same_sobj (sc_maps s) (sc_maps s') /\ Forall2 same_sobj (sc_positions s) (sc_positions s') /\
  Forall2 same_sobj (sc_symdefs s) (sc_symdefs s') /\ sc_classes s' = [].
(** Two scene objects with one GUID: at different places of the walk. *)
Definition clash (s : scene) : Prop := exists a p b q c,
  flat_map walk (sc_layers s) = a ++ Left p :: b ++ Left q :: c /\
  in_scene (sclass p) = true /\ in_scene (sclass q) = true /\ get "fGuid" (smembers p) = get "fGuid" (smembers q).

(** ** Files *)
(** No text has a CR, no text that is written as that of a node consists of white space, and so on for the objects inside. *)
Definition in_node (c : scls) (g : string) : Prop := exists it, In it (swrites c) /\ match it with WNode _ f _ _ | WOwn f _ => f = g | _ => False end.
Definition texts_ok (c : scls) (vs : env) : Prop :=
  forall g s, get g vs = VTxt s -> ~ In 13 s /\ (in_node c g -> s = [] \/ ~ Forall XmlSpec.white s).
Inductive texts_fine : sobj -> Prop :=
| texts_fine_i c vs kss : texts_ok c vs -> Forall (Forall texts_fine) kss -> texts_fine (SObj c vs kss).
(** How deep objects are nested. *)
Fixpoint slevels (o : sobj) : nat :=
  match o with SObj _ _ kss => S (fold_right (fun ks n => Nat.max (fold_right (fun k n => Nat.max (slevels k) n) O ks) n) O kss) end.
Definition scene_texts (s : scene) : Prop :=
  ~ In 13 (sc_provider s) /\ ~ In 13 (sc_version s) /\
  Forall texts_fine (sc_data s ++ sc_layers s ++ sc_maps s ++ sc_positions s ++ sc_symdefs s).
