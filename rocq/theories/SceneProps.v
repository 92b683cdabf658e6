(** C93 - C95: the scene of an MVR file, written and read again. *)
From Coq Require Import String List NArith ZArith Bool Lia.
From Coq Require Import ZifyN ZifyNat ZifyBool.
From Verif Require Import Bytes BytesProofs Txt StringModel StringProofs NumModel NumProofs FloatModel ConvModel UuidModel UuidProps EnumModel VecModel VecProps
  XmlModel XmlSpec XmlProofs ObjModel ObjSpec ObjConv SceneModel SceneSpec SceneConv SceneTree SceneProofs SceneCheck.
Import ListNotations.
Open Scope N_scope.
Open Scope list_scope.
Ltac Zify.zify_post_hook ::= idtac.

(** ** C93: members *)
(** Only the members of a custom command have no entry of their own: they share the text of the node. *)
Theorem C93_members c g : In g (map fst (sfields c)) ->
  (exists k w, In (g, k, w) (flat_map entry (swrites c))) \/
  c = SCommand /\ In g ["fChannelFunction"; "fIsPercentage"; "fValue"]%string /\ In WCommand (swrites c).
Proof.
  intros I. assert (H : In g (map (fun e => fst (fst e)) (flat_map entry (swrites c))) \/
    c = SCommand /\ In g ["fChannelFunction"; "fIsPercentage"; "fValue"]%string /\ In WCommand (swrites c)).
  { destruct c; cbn in I |- *; repeat (destruct I as [<- |I]; [tauto|]); destruct I. }
  destruct H as [H|H]; [left|now right]. apply in_map_iff in H as (((f, k), w) & <- & H). eauto.
Qed.
(** The members that may be left out, and when: texts and references that are empty, the numeric fixture id 0,
    a matrix within 1e-7 of the identity, without an offset. *)
Definition about (x : fl) (e : Z) : Prop := exists s u, x = Fin s u /\ (Z.abs ((if s then - Z.of_N u else Z.of_N u) - e * Z.of_N units) * 10000000 < Z.of_N units)%Z.
Definition row_about (v : vec) (a b c : Z) : Prop := let '(x, y, z) := v in about x a /\ about y b /\ about z c.
Definition near_identity (m : mat) : Prop :=
  row_about (mU m) 1 0 0 /\ row_about (mV m) 0 1 0 /\ row_about (mW m) 0 0 1 /\
  let '(x, y, z) := mO m in about x 0 /\ about y 0 /\ about z 0.
Definition may_be_left_out (f : string) (v : val) : Prop :=
  In f ["fName"; "fMultipatchObj"; "fClass"; "fSymDef"; "fLinkedGeometry"; "fFocusPoint"; "fPosition"; "fFunction"]%string /\ v = VTxt [] \/
  f = "fFixtureIdNumeric"%string /\ v = VNat 0 \/
  f = "fMatrix"%string /\ exists m, v = VMat m /\ near_identity m.
Lemma square_small (a b : Z) : (0 <= a -> 0 < b -> a * a * 100000000000000 < b * b -> a * 10000000 < b)%Z.
Proof. intros A B H. apply Z.nle_gt. intros L. assert (b * b <= (a * 10000000) * (a * 10000000))%Z by (apply Z.mul_le_mono_nonneg; lia). lia. Qed.
Lemma dist_small x e k u : (0 < u)%Z -> u = Z.of_N units -> dist x e = Some k -> (0 <= k)%Z /\ ((k * 100000000000000 < u * u)%Z -> about x e).
Proof.
  intros U EU D. destruct x as [s n| |]; try discriminate D. unfold dist in D. rewrite <- EU in D. set (d := ((if s then - Z.of_N n else Z.of_N n) - e * u)%Z) in *.
  assert (k = d ^ 2)%Z as -> by congruence. rewrite Z.pow_2_r. split; [apply Z.square_nonneg|]. intros H. exists s, n. split; [reflexivity|]. rewrite <- EU. fold d.
  apply square_small; [apply Z.abs_nonneg|exact U|]. now rewrite <- Z.abs_mul, Z.abs_eq by apply Z.square_nonneg.
Qed.
Lemma near_about v a b c : near_unit v a b c = true -> row_about v a b c.
Proof.
  destruct v as ((x, y), z). unfold near_unit, row_about. assert (U : (0 < Z.of_N units)%Z) by reflexivity.
  remember (Z.of_N units) as u eqn:EU. destruct (dist x a) as [i|] eqn:EX; [|discriminate]. destruct (dist y b) as [j|] eqn:EY; [|discriminate]. destruct (dist z c) as [k|] eqn:EZ; [|discriminate].
  intros H. apply Z.ltb_lt in H. rewrite Z.pow_2_r in H.
  destruct (dist_small x a i u U EU EX) as (I0 & X). destruct (dist_small y b j u U EU EY) as (J0 & Y). destruct (dist_small z c k u U EU EZ) as (K0 & Z0).
  split; [apply X; lia|]. split; [apply Y; lia|apply Z0; lia].
Qed.
Lemma square_about x : square_zero x = true -> about x 0.
Proof.
  destruct x as [s n| |]; try discriminate. unfold square_zero. intros H. apply N.eqb_eq in H. exists s, n. split; [reflexivity|].
  assert (U : 1000000000000000000 < units) by reflexivity. remember units as u eqn:EU. clear EU. assert (Q : 2 * (n * n) <= u).
  { destruct (near_even_err (n * n) u ltac:(lia)) as (E1 & E2). rewrite H in E1, E2. lia. }
  assert (Z.abs ((if s then - Z.of_N n else Z.of_N n) - 0 * Z.of_N u) = Z.of_N n) as -> by (destruct s; lia).
  apply Z.nle_gt. intros L. assert (u * u <= (n * 10000000) * (n * 10000000)) by (apply N.mul_le_mono; lia). nia.
Qed.
Lemma identity_near m : is_identity m = true -> near_identity m.
Proof.
  unfold is_identity, near_identity. intros H. apply andb_prop in H as (H & HW). apply andb_prop in H as (H & HV). apply andb_prop in H as (HO & HU).
  split; [now apply near_about|]. split; [now apply near_about|]. split; [now apply near_about|]. unfold no_offset in HO. destruct (mO m) as ((x, y), z).
  apply andb_prop in HO as (HO & H3). apply andb_prop in HO as (H1 & H2). auto using square_about.
Qed.
Theorem C93_left_out c f k w v : In (f, k, w) (flat_map entry (swrites c)) -> sval_ok k v -> SceneModel.written w v = false -> may_be_left_out f v.
Proof.
  intros I V H. unfold may_be_left_out.
  assert (A : w = WIfText /\ In f ["fName"; "fMultipatchObj"; "fClass"; "fSymDef"; "fLinkedGeometry"; "fFocusPoint"; "fPosition"; "fFunction"]%string \/
    w = WIfNonZero /\ f = "fFixtureIdNumeric"%string \/ w = WIfMatrix /\ f = "fMatrix"%string \/ w = WIfGuid /\ k = SGuid \/ w = WAlways).
  { clear -I. destruct c; cbn in I; repeat (destruct I as [I|I]; [injection I as <- <- <-; cbn; tauto|]); destruct I. }
  destruct A as [(-> & F)|[(-> & F)|[(-> & F)|[(-> & ->)| ->]]]].
  - left. split; [exact F|]. cbn [SceneModel.written] in H. destruct v; try discriminate H. destruct s; [reflexivity|discriminate H].
  - right. left. split; [exact F|]. cbn [SceneModel.written] in H. destruct v; try discriminate H. destruct n; [reflexivity|discriminate H].
  - right. right. split; [exact F|]. cbn [SceneModel.written] in H. destruct v as [| | | | | | | |m| | | | |]; try discriminate H. exists m. split; [reflexivity|]. apply identity_near. now apply negb_false_iff in H.
  - exfalso. cbn [SceneModel.written] in H. destruct v; try discriminate H. exact V.
  - discriminate H.
Qed.
Example C93_case : exists k w, In ("fMatrix"%string, k, w) (flat_map entry (swrites SFixture)) /\ SceneModel.written w (VMat identity) = false /\
  SceneModel.written w (VMat (mkMat (VecModel.one, zero, zero) (zero, VecModel.one, zero) (zero, zero, VecModel.one) (zero, Fin true units, zero))) = true.
Proof. exists SMatrix, WIfMatrix. split; [cbn; tauto|]. split; vm_compute; reflexivity. Qed.

(** ** C94: objects and what is inside them *)
Theorem C94_tree o : sobj_ok o -> (sclass o = SGobo -> get "fGobo" (smembers o) <> VTxt []) ->
  exists n o', write_sobj o = Ok [n] /\ sread_node (sclass o) n = Ok o' /\ same_sobj o o'.
Proof.
  intros OK G. destruct (tree_back o OK) as (ns & W & [(_ & C & F)|(k & <- & -> & R)]).
  - exfalso. apply (G C). clear -F. inversion F as [c vs vs' kss kss' E _ EO EF]; subst. specialize (E "fGobo"%string). cbn in E. destruct E as [E|E]; [exact E|]. cbn [smembers].
    destruct (get "fGobo" vs); contradiction E.
  - destruct R as (_ & S & _ & R). exists (sk_node k), (sk_back k). split; [exact W|]. split; [|exact S]. apply R. apply le_n.
Qed.
(** Every class has its place in a file. *)
Inductive sbelow : scls -> Prop :=
| sbelow_root c : In c [SProvider; SLayer; SMapDef; SPosition; SSymdef] -> sbelow c
| sbelow_step c s d : sbelow c -> In s (sslots c) -> In d (map snd (rs_kinds s)) -> sbelow d.
Theorem C94_places c : c <> SClass -> sbelow c.
Proof.
  intros NC.
  assert (Step : forall a d, sbelow a -> existsb (fun s => existsb (is_class d) (map snd (rs_kinds s))) (sslots a) = true -> sbelow d).
  { intros a d B H. apply existsb_exists in H as (s & I & H). apply existsb_exists in H as (x & J & E). apply is_class_ok in E. subst x. exact (sbelow_step a s d B I J). }
  assert (L : sbelow SLayer) by (apply sbelow_root; cbn; tauto). assert (P : sbelow SProvider) by (apply sbelow_root; cbn; tauto). assert (M : sbelow SMapDef) by (apply sbelow_root; cbn; tauto).
  assert (F : sbelow SFixture) by (apply (Step SLayer); [exact L|reflexivity]). assert (J : sbelow SProjector) by (apply (Step SLayer); [exact L|reflexivity]).
  destruct c; try contradiction; first [apply sbelow_root; cbn; tauto | apply (Step SLayer); [exact L|reflexivity] | apply (Step SProvider); [exact P|reflexivity] | apply (Step SMapDef); [exact M|reflexivity]
    | apply (Step SFixture); [exact F|reflexivity] | apply (Step SProjector); [exact J|reflexivity]].
Qed.
(** Scene objects stand in layers, groups and in each other; geometries, commands, alignments, overwrites and connections in all of them. *)
Definition scene_classes : list scls := [SFixture; SScenery; SFocusPoint; STruss; SSupport; SVideoScreen; SProjector; SGroup].
Theorem C94_children c d : In c (SLayer :: scene_classes) -> In d (scene_classes ++ [SGeometry3D; SSymbol; SCommand; SAlignment; SOverwrite; SConnection]) ->
  exists s, In s (sslots c) /\ In d (map snd (rs_kinds s)) /\ (rs_mode s = RAll \/ rs_mode s = RAllUuid).
Proof.
  intros Ic Id.
  assert (H : existsb (fun s => existsb (is_class d) (map snd (rs_kinds s)) && match rs_mode s with RAll | RAllUuid => true | _ => false end) (sslots c) = true).
  { cbn in Ic, Id. repeat (destruct Ic as [<- |Ic]; [repeat (destruct Id as [<- |Id]; [reflexivity|]); destruct Id|]). destruct Ic. }
  apply existsb_exists in H as (s & I & H). apply andb_prop in H as (H & M). apply existsb_exists in H as (x & J & E). apply is_class_ok in E. subst x. exists s. split; [exact I|]. split; [exact J|].
  destruct (rs_mode s); try discriminate M; auto.
Qed.
(** Only sources, the projection of a projector and the gobo of a fixture are limited to one. *)
Theorem C94_any_number c s d : In s (sslots c) -> In d (map snd (rs_kinds s)) -> d <> SSource -> d <> SProjection -> d <> SGobo -> rs_mode s = RAll \/ rs_mode s = RAllUuid.
Proof.
  intros Is Id N1 N2 N3.
  assert (H : forallb (fun s => match rs_mode s with RAll | RAllUuid => true | _ => forallb (fun d => is_class d SSource || is_class d SProjection || is_class d SGobo) (map snd (rs_kinds s)) end) (sslots c) = true)
    by (destruct c; reflexivity).
  rewrite forallb_forall in H. specialize (H s Is). destruct (rs_mode s); auto; rewrite forallb_forall in H; specialize (H d Id); apply orb_prop in H as [H|H]; try (apply orb_prop in H as [H|H]);
    apply is_class_ok in H; contradiction.
Qed.
(** Members and children other than these are not lost: what an object holds is written and found in the same slot. *)
Theorem C94_slots c i : (i < List.length (sslots c))%nat <-> exists n e d, In (WSlot i n e d) (swrites c).
Proof.
  split.
  - intros L. assert (H : forallb (fun i => existsb (slot_is i) (swrites c)) (seq 0 (List.length (sslots c))) = true) by (destruct c; reflexivity).
    rewrite forallb_forall in H. specialize (H i ltac:(apply in_seq; lia)). apply existsb_exists in H as (it & I & E). destruct it; try discriminate E. cbn [slot_is] in E. apply Nat.eqb_eq in E. subst i0. eauto.
  - intros (n & e & d & I). assert (H : forallb (fun it => match it with WSlot i _ _ _ => (i <? List.length (sslots c))%nat | _ => true end) (swrites c) = true) by (destruct c; reflexivity).
    rewrite forallb_forall in H. specialize (H _ I). cbv beta iota in H. now apply Nat.ltb_lt.
Qed.

(** The names of the nodes, as the MVR format has them. *)
Definition mvr_name (c : scls) : list N := match c with
  | SProvider => T"Data" | SEntry => T"VWEntry" | SSymdef => T"Symdef" | SPosition => T"Position" | SClass => T"Class" | SMapDef => T"MappingDefinition"
  | SSource => T"Source" | SGeometry3D => T"Geometry3D" | SSymbol => T"Symbol" | SCommand => T"CustomCommand" | SAlignment => T"Alignment"
  | SOverwrite => T"Overwrite" | SConnection => T"Connection" | SLayer => T"Layer" | SGroup => T"GroupObject" | SFixture => T"Fixture"
  | SScenery => T"SceneObject" | SFocusPoint => T"FocusPoint" | STruss => T"Truss" | SSupport => T"Support" | SVideoScreen => T"VideoScreen"
  | SProjector => T"Projector" | SProjection => T"Projection" | SAddress => T"Address" | SGobo => T"Gobo" | SMapping => T"Mapping" | SProtocol => T"Protocol"
  end.
Theorem C94_names o ns : write_sobj o = Ok ns -> ns = [] \/ exists a k, ns = [Elem (mvr_name (sclass o)) a k].
Proof.
  destruct o as [c vs kss]. cbn [write_sobj sclass]. destruct (left_out c vs kss); [intros E; apply Ok_inj in E; now left|].
  match goal with |- bind ?e _ = _ -> _ => destruct e as [nss| | |]; try discriminate end. cbn [bind].
  destruct (write_items vs kss nss (swrites c) ([], [])) as [st| | |]; try discriminate. cbn [bind]. intros E. apply Ok_inj in E. subst ns. right.
  exists (fst st), (snd st). now destruct c.
Qed.

(** ** C95: scenes *)
(** The objects that are looked up by their GUID and whose GUID is not to be used twice. *)
Theorem C95_objects c : in_scene c = true <-> In c [SFixture; SScenery; SFocusPoint; STruss; SSupport; SVideoScreen; SProjector].
Proof. split; [destruct c; try discriminate; cbn; tauto|]. cbn. intros I. repeat (destruct I as [<- |I]; [reflexivity|]). destruct I. Qed.
(** Two texts that are one key of an unordered_map of TXString are equal up to case, and a text is the key it was stored under. *)
Definition key_test (same_key : list N -> list N -> bool) : Prop := (forall t, same_key t t = true) /\ forall a b, same_key a b = true -> txeq a b = true.
Theorem C95_scene same_key s : key_test same_key -> scene_ok s ->
  exists n s' b, write_scene s = Ok n /\ read_scene same_key n = Ok (s', b) /\ same_scene s s' /\ (b = true <-> clash s).
Proof. intros (K1 & K2). now apply scene_back. Qed.

(** *** A scene *)
Definition mk (c : scls) (l : list (string * val)) (ks : list (nat * list sobj)) : sobj :=
  SObj c (fold_left (fun vs p => put (fst p) (snd p) vs) l (sfields c))
    (map (fun i => flat_map (fun p => if (fst p =? i)%nat then snd p else []) ks) (seq 0 (List.length (sslots c)))).
Definition tx (s : string) : val := VTxt (txt s).
Definition id (n : N) : list N := n :: repeat 7 15.
Definition to_id (n : N) : val := VTxt (write_uuid (id n)).
Definition gid (n : N) : string * val := ("fGuid"%string, VUuid (id n)).
Definition moved : val := VMat (mkMat (VecModel.one, zero, zero) (zero, VecModel.one, zero) (zero, zero, VecModel.one) (zero, Fin true units, decimal 1 10)).
Open Scope string_scope.
Definition a_source : sobj := mk SSource [("fLinkedGeometry", tx "Screen"); ("fType", VNat 1); ("fValue", tx "movie.mov")] [].
Definition spot : sobj :=
  mk SFixture [gid 3; ("fName", tx "Spot & more"); ("fMatrix", moved); ("fGdtfFile", tx "Spot.gdtf"); ("fGdtfDmxMode", tx "Mode 1"); ("fFocusPoint", to_id 4); ("fPosition", to_id 20);
      ("fFixtureId", tx "101"); ("fFixtureIdNumeric", VNat 101); ("fUnitNumber", VInt 7); ("fFixtureTypeId", VInt (-3)); ("fCustomId", VNat 9); ("fFunction", tx "key");
      ("fCastShadow", VFlag true)]
    [(0%nat, [mk SSymbol [gid 8; ("fMatrix", moved); ("fSymDef", to_id 30)] []; mk SGeometry3D [("fFileName", tx "base.glb")] []]);
     (1%nat, [mk SCommand [("fChannelFunction", tx "Body.Pan"); ("fValue", VDbl (decimal 5 2))] []; mk SCommand [("fChannelFunction", tx "Body.Dimmer"); ("fIsPercentage", VFlag true); ("fValue", VDbl (decimal 50 1))] []]);
     (2%nat, [mk SAlignment [("fBeamGeometry", tx "Beam"); ("fDirection", VVec (zero, zero, VecModel.one))] []]);
     (3%nat, [mk SOverwrite [("fUniversal", tx "Wheel 1"); ("fTarget", tx "Wheel 2")] []]);
     (4%nat, [mk SConnection [("fOwn", tx "Out"); ("fOther", tx "In"); ("fToObject", VUuid (id 5))] []]);
     (6%nat, [mk SAddress [("fAbsuluteAdress", VNat 513)] []; mk SAddress [("fBreak", VNat 1); ("fAbsuluteAdress", VNat 1)] []]);
     (7%nat, [mk SGobo [("fGobo", tx "dots.png"); ("fGoboRotation", VDbl (decimal 45 1))] []]);
     (8%nat, [mk SMapping [("fLinkedDefUuid", VUuid (id 40)); ("fUx", VNat 10); ("fUy", VNat 20); ("fOx", VNat 5); ("fOy", VNat 5); ("fRz", VDbl zero)] []]);
     (9%nat, [mk SProtocol [("fName", tx "Art-Net"); ("fTransmision", VNat 0)] []])].
Definition a_scene : scene := mkScene T"Some editor" T"1.2"
  [mk SProvider [("fProvider", tx "Some editor"); ("fVersion", tx "1.2")] [(0%nat, [mk SEntry [("fKey", tx "grid"); ("fData", tx "on")] []])]]
  [mk SLayer [gid 1; ("fName", tx "Stage")]
    [(5%nat, [mk SGroup [gid 2; ("fName", tx "Bridge"); ("fMatrix", moved)] [(5%nat, [spot])]; mk SFocusPoint [gid 4] [];
              mk SFixture [gid 5; ("fName", tx "Twin"); ("fMultipatchObj", to_id 3)] [(7%nat, [mk SGobo [] []])];
              mk STruss [gid 6] [(5%nat, [mk SSupport [gid 7] []])]; mk SVideoScreen [gid 9] [(6%nat, [a_source])];
              mk SProjector [gid 10] [(6%nat, [mk SProjection [("fScaleHandling", VNat 2)] [(0%nat, [a_source])]])]; mk SScenery [gid 11] []])];
   mk SLayer [gid 12] []]
  [mk SMapDef [gid 40; ("fSizeX", VNat 1920); ("fSizeY", VNat 1080)] [(0%nat, [a_source])]]
  [mk SPosition [gid 20; ("fName", tx "Bridge")] []]
  [mk SSymdef [gid 30; ("fName", tx "Chair")] [(0%nat, [mk SGeometry3D [("fFileName", tx "chair.glb")] []; mk SSymbol [gid 33; ("fSymDef", to_id 31)] []])]; mk SSymdef [gid 31] []]
  [].
Close Scope string_scope.
Definition the_ids : list (list N) := map id (map N.of_nat (seq 0 50)).
Lemma a_scene_ok : scene_ok a_scene.
Proof. apply (scene_okb_ok the_ids). vm_compute. reflexivity. Qed.
Lemma spot_ok : sobj_ok spot.
Proof. apply (sobj_okb_ok the_ids). vm_compute. reflexivity. Qed.
Example C94_case : exists n o', write_sobj spot = Ok [n] /\ sread_node SFixture n = Ok o' /\ same_sobj spot o'.
Proof. apply (C94_tree spot spot_ok). discriminate. Qed.
Lemma exact_key : key_test eqb_bytes.
Proof. split; [apply eqb_bytes_refl|]. intros a b E. apply eqb_bytes_iff in E. subst b. now apply StringProofs.txeq_iff. Qed.
Example C95_case : exists n s', write_scene a_scene = Ok n /\ read_scene eqb_bytes n = Ok (s', false) /\ same_scene a_scene s' /\ ~ clash a_scene.
Proof.
  destruct (C95_scene eqb_bytes a_scene exact_key a_scene_ok) as (n & s' & b & W & R & S & B). exists n, s'. split; [exact W|].
  assert (E : match write_scene a_scene with Ok n => match read_scene eqb_bytes n with Ok (_, b) => b | _ => true end | _ => true end = false) by (vm_compute; reflexivity).
  rewrite W, R in E. subst b.
  split; [exact R|]. split; [exact S|]. intros C. apply B in C. discriminate C.
Qed.
Print Assumptions C93_members.
Print Assumptions C93_left_out.
Print Assumptions C94_tree.
Print Assumptions C94_places.
Print Assumptions C94_children.
Print Assumptions C94_any_number.
Print Assumptions C94_slots.
Print Assumptions C94_names.
Print Assumptions C95_objects.
Print Assumptions C95_scene.
