(** C87 to C92: the objects of a fixture are written to XML and read back. *)
From Coq Require Import String List NArith ZArith Bool Lia.
From Coq Require Import ZifyN ZifyNat ZifyBool.
From Verif Require Import Bytes BytesProofs Txt UtfModel UtfSpec StringModel StringSpec NumModel FloatModel FloatProps ConvModel ConvProps ConvProps2
  EnumModel VecModel VecProps DmxModel DmxValProps XmlModel XmlSpec XmlProofs XmlProps AttrModel ObjModel ObjSpec ObjConv ObjAttrs ObjTree ObjCheck.
Import ListNotations.
Open Scope N_scope.
Open Scope list_scope.
Ltac Zify.zify_post_hook ::= idtac.

(** ** C87: the members of an object and the attributes of its node *)
Theorem C87_attributes c ctx vs : attrs_ok c ctx vs ->
  exists attrs vs',
    write_entries (reso_of c ctx vs) vs (writes c) [] = Ok attrs /\ map fst attrs = written_names c vs /\
    read_entries (reso_of c ctx) attrs (reads c) (fields c, 0) = Ok (vs', 0) /\ same_env vs vs' /\
    write_entries (reso_of c ctx vs') vs' (writes c) [] = Ok attrs.
Proof.
  intros A. destruct (written c ctx vs A) as (os & W). destruct (read_back c ctx vs A os W) as (st & R & S & Z).
  exists (pairs (writes c) os), st.
  split; [exact (write_entries_ok (reso_of c ctx vs) vs (writes c) os [] (writes_nodup c) (fun _ _ H => H) W)|].
  split; [exact (pairs_present c ctx vs os A W)|]. split; [exact R|]. split; [exact S|].
  exact (write_entries_ok _ st (writes c) os [] (writes_nodup c) (fun _ _ H => H) (write_again c ctx vs os W st S Z)).
Qed.
(** Only numbers that are not whole may change, by less than a millionth; everything else is kept. *)
Definition fractional (v : val) : bool := match v with VDbl _ | VVec _ | VVecs _ | VMat _ | VPt _ _ => true | _ => false end.
Theorem C87_exact vs vs' g : same_env vs vs' -> fractional (get g vs) = false -> get g vs' = get g vs.
Proof. intros E F. destruct (E g) as [->|K]; [reflexivity|]. destruct (get g vs); try discriminate F; contradiction. Qed.
Theorem C87_double vs vs' g neg u : same_env vs vs' -> get g vs = VDbl (Fin neg u) ->
  exists u', get g vs' = VDbl (Fin neg u') /\ (Z.abs (Z.of_N u' - Z.of_N u) * 1000000 <= 2 ^ 1074)%Z.
Proof.
  intros E G. specialize (E g). rewrite G in E. destruct E as [<- |K].
  - exists u. split; [reflexivity|]. rewrite Z.sub_diag. change (Z.abs 0 * 1000000)%Z with 0%Z. now apply Z.pow_nonneg.
  - destruct (get g vs') as [|y| | | | | | | | | | | |]; try contradiction. destruct K as (_ & _ & u' & -> & L). eauto.
Qed.

(** ** C88: trees of objects *)
Theorem C88_tree hash buckets ctx o : obj_ok ctx o ->
  exists n o', write_obj ctx o = Ok n /\ read_node hash buckets ctx (class o) n = Ok (o', reports o) /\
    same_obj o o' /\ write_obj ctx o' = Ok n.
Proof.
  intros O. destruct (tree_back hash buckets o ctx O) as (n & W & R). destruct (R (depth n) (le_n _)) as (o' & B).
  exists n, o'. split; [exact W|]. split; [exact (bk_read _ _ _ _ _ B)|]. split; [exact (bk_same _ _ _ _ _ B)|exact (bk_again _ _ _ _ _ B)].
Qed.

(** ** C89: files *)
Theorem C89_file hash buckets ctx o : obj_ok ctx o -> no_cr_obj o -> (levels o <= 98)%nat ->
  exists n n' o', write_obj ctx o = Ok n /\ parse (write_buffer [n]) = DOk [Decl declaration; n'] /\
    read_node hash buckets ctx (class o) n' = Ok (o', reports o) /\ same_obj o o' /\ write_obj ctx o' = Ok n.
Proof.
  intros O Q L. destruct (tree_file o ctx O Q) as (a & ks & W & Tr & Pl & Ne). destruct (C88_tree hash buckets ctx o O) as (n & o' & W' & R & S & W2).
  rewrite W in W'. apply Ok_inj in W'. subst n. eexists _, _, o'. split; [exact W|]. split; [exact (C77_same _ _ _ (levels o) Tr Pl Ne L)|]. auto.
Qed.
(** Nested deeper, the file cannot be read at all. *)
Theorem C89_deep ctx o : obj_ok ctx o -> no_cr_obj o -> (98 < levels o)%nat ->
  exists n, write_obj ctx o = Ok n /\ parse (write_buffer [n]) = DErr EDepth.
Proof.
  intros O Q L. destruct (tree_file o ctx O Q) as (a & ks & W & Tr & Pl & Ne). eexists. split; [exact W|].
  exact (proj2 (C77_document _ _ _ (levels o) Tr Ne) L).
Qed.

(** ** C90: errors reported for files written by this library *)
(** References that are asked for and only written if set. *)
Definition asked (c : cls) : list string :=
  match c with
  | CAttribute => ["fFeature"]
  | CGeometryReference => ["fLinkedGeometry"]
  | CPinPatch => ["fToWiringObject"]
  | CDmxMode | CDmxChannel => ["fGeomRef"]
  | CDmxLogicalChannel => ["fAttribute"]
  | CDmxSubChannelSet => ["fSubPhysicalUnit"]
  | CDmxRelation => ["fMasterDmxChannel"; "fSlaveChannelFunction"]
  | _ => []
  end%string.
(** A display: its Width, Height and IsCurved are written but not known. *)
Definition unknown (c : cls) : N := match c with CGeometryDisplay => 3 | _ => 0 end.
Fixpoint lacking (o : obj) : N :=
  match o with
  | Obj c vs ks => unknown c + nlen (filter (fun g => no_text g vs) (asked c)) + fold_right (fun k n => lacking k + n) 0 ks
  end.
Definition pres (vs : env) (x : when) : bool :=
  match x with
  | Always | Deref | IfFlagElseEmpty _ => true
  | IfText g => negb (no_text g vs)
  | IfFlag g => flag g vs
  | IfEnum g n => kind_is g n vs
  | IfNonZero g => negb (is_zero (get g vs))
  end.
Lemma present_pres vs e : present vs e = pres vs (w_when e).
Proof. unfold present, shown. destruct (w_when e); cbn [pres orb]; try apply orb_false_r; try reflexivity. apply orb_true_r. Qed.
Definition same_name (a b : list N) : bool := eqb_bytes (map ascii_lower a) (map ascii_lower b).
Definition whens (c : cls) (a : list N) : list when := map w_when (filter (fun e => same_name a (w_attr e)) (writes c)).
Lemma named_whens c vs a : named a (written_names c vs) = existsb (pres vs) (whens c a).
Proof.
  unfold written_names, whens, named. induction (writes c) as [|e es IH]; [reflexivity|]. cbn [filter]. rewrite present_pres.
  fold (same_name a (w_attr e)). destruct (pres vs (w_when e)) eqn:P, (same_name a (w_attr e)) eqn:S; cbn [map existsb]; rewrite ?P; fold (same_name a (w_attr e)); rewrite ?S; cbn [orb]; auto.
Qed.
Lemma needed_whens c vs l : nlen (filter (fun a => negb (named a (written_names c vs))) l)
  = nlen (filter (fun x => negb (existsb (pres vs) x)) (map (whens c) l)).
Proof.
  induction l as [|a l IH]; [reflexivity|]. cbn [filter map]. rewrite named_whens. destruct (existsb (pres vs) (whens c a)); cbn [negb]; [exact IH|].
  now rewrite !nlen_cons, IH.
Qed.
Definition strange (c : cls) (l : list (list N)) : list (list N * when) :=
  map (fun e => (w_attr e, w_when e)) (filter (fun e => negb (named (w_attr e) l)) (writes c)).
Lemma unknown_whens c vs l : filter (fun a => negb (named a l)) (written_names c vs) = map fst (filter (fun p => pres vs (snd p)) (strange c l)).
Proof.
  unfold written_names, strange. induction (writes c) as [|e es IH]; [reflexivity|]. cbn [filter]. rewrite present_pres.
  destruct (pres vs (w_when e)) eqn:P, (named (w_attr e) l) eqn:S; cbn [map filter negb snd]; rewrite ?P, ?S; cbn [negb map filter fst snd]; rewrite ?P; cbn [map fst]; now rewrite ?IH.
Qed.
Definition needs (c : cls) (p : list (list N) * list (list N)) : list (list when) * list (list N * when) :=
  (map (whens c) (fst p), strange c (fst p ++ snd p)).
Lemma own_lacking c vs : own_reports c vs = unknown c + nlen (filter (fun g => no_text g vs) (asked c)).
Proof.
  assert (G : own_reports c vs = match attribute_lists c vs with None => 0 | Some p => let (a, b) := needs c p in
    nlen (filter (fun x => negb (existsb (pres vs) x)) a) + nlen (map fst (filter (fun p => pres vs (snd p)) b)) end).
  { unfold own_reports. destruct (attribute_lists c vs) as [(needed, optional)|]; [|reflexivity]. unfold needs. cbv zeta. cbn [fst snd].
    now rewrite needed_whens, unknown_whens. }
  rewrite G. clear G.
  destruct c; cbv beta iota zeta delta [attribute_lists]; try reflexivity;
    repeat match goal with
    | |- context [flag ?g vs] => destruct (flag g vs) eqn:?
    | |- context [kind_is ?g ?n vs] => destruct (kind_is g n vs)
    end;
    match goal with |- context [needs ?c ?p] => let x := fresh "x" in set (x := needs c p); vm_compute in x; subst x end;
    cbv beta iota; cbn [filter existsb pres negb orb snd map fst unknown asked nlen List.length];
    repeat match goal with
    | |- context [no_text ?g vs] => destruct (no_text g vs)
    | H : flag ?g vs = _ |- context [flag ?g vs] => rewrite H
    end; reflexivity.
Qed.

Theorem C90_reports o : reports o = lacking o.
Proof.
  induction o as [c vs ks IH] using obj_induction. cbn [reports lacking]. rewrite own_lacking. f_equal.
  induction IH as [|k ks H F IH]; [reflexivity|]. cbn [fold_right]. now rewrite H, IH.
Qed.
(** Nothing is reported for objects without displays in which the references asked for are set. *)
Inductive complete : obj -> Prop :=
| complete_i c vs ks : c <> CGeometryDisplay -> (forall g, In g (asked c) -> no_text g vs = false) -> Forall complete ks -> complete (Obj c vs ks).
Theorem C90_clean hash buckets ctx o : obj_ok ctx o -> complete o ->
  exists n o', write_obj ctx o = Ok n /\ read_node hash buckets ctx (class o) n = Ok (o', 0) /\ same_obj o o'.
Proof.
  intros O C. destruct (C88_tree hash buckets ctx o O) as (n & o' & W & R & S & _). exists n, o'. split; [exact W|]. split; [|exact S].
  assert (reports o = 0) as <-; [|exact R]. rewrite C90_reports. clear -C. revert C.
  induction o as [c vs ks IH] using obj_induction. intros C. inversion C as [? ? ? Nd As Ks]; subst. cbn [lacking].
  assert (unknown c = 0) as -> by (destruct c; try reflexivity; congruence).
  assert (filter (fun g => no_text g vs) (asked c) = []) as ->.
  { induction (asked c) as [|g l IHl]; [reflexivity|]. cbn [filter]. rewrite (As g) by now left. apply IHl. intros h Hh. apply As. now right. }
  change (nlen (@nil string)) with 0. rewrite !N.add_0_l. clear C Nd As. induction IH as [|k ks H F IHks]; [reflexivity|]. inversion Ks as [|? ? K1 K2]; subst. cbn [fold_right].
  rewrite (H K1), (IHks K2). reflexivity.
Qed.

(** ** A fixture *)
Definition mk (c : cls) (l : list (string * val)) (ks : list obj) : obj := Obj c (fold_left (fun vs p => put (fst p) (snd p) vs) l (fields c)) ks.
Definition tx (s : string) : val := VTxt (txt s).
Open Scope string_scope.
Definition a_wheel : obj :=
  mk CWheel [("fName", tx "Gobos")]
    [mk CWheelSlot [("fName", tx "Open")] [];
     mk CWheelSlot [("fName", tx "Dots"); ("fGobo", tx "dots"); ("fDuration", VDbl (decimal 5 2)); ("fWidth", VNat 1024)]
       [mk CWheelSlotPrismFacet [("fColor", VVec (decimal 1 3, decimal 1 7, decimal 9 1))] []]].
Definition a_geometry : obj :=
  mk CGeometry [("fUniqueName", tx "Base"); ("fModelReference", tx "Box")]
    [mk CGeometryAxis [("fUniqueName", tx "Yoke"); ("fMatrix", VMat (mkMat (VecModel.one, zero, zero) (zero, VecModel.one, zero) (zero, zero, VecModel.one) (zero, Fin true units, decimal 1 10)))]
       [mk CGeometryLamp [("fUniqueName", tx "Lens"); ("fBeamAngle", VDbl (decimal 251 10)); ("fBeamType", VNat 1)] []];
     mk CGeometryReference [("fUniqueName", tx "Pixel 1"); ("fLinkedGeometry", tx "Pixel")]
       [mk CBreak [("fDmxBreak", VInt 2); ("fDmxAdress", VNat 5)] []]].
Definition a_channel : obj :=
  mk CDmxChannel [("fOffset", VOff (1, 2, 0, 0)); ("fHeighlight", VDmx false 65535); ("fGeomRef", tx "Yoke"); ("fInitialFunction", tx "Yoke_Pan.Pan.Pan 1")]
    [mk CDmxLogicalChannel [("fAttribute", tx "Pan")]
       [mk CDmxChannelFunction [("fName", tx "Pan 1"); ("fDefaultValue", VDmx false 32768); ("fAttribute", tx "Pan")]
          [mk CDmxChannelSet [("fUniqueName", tx "left")] [];
           mk CDmxChannelSet [("fUniqueName", tx "right"); ("fDmxStart", VDmx false 32768); ("fSetPhysical", VFlag true)] []];
        mk CDmxChannelFunction [("fName", tx "Spin"); ("fAdressStart", VDmx false 60000)] []]].
Definition a_mode : obj :=
  mk CDmxMode [("fName", tx "Standard"); ("fGeomRef", tx "Base")]
    [mk CDMXChannels [] [a_channel];
     mk CRelations [] [mk CDmxRelation [("fUniqueName", tx "r"); ("fMasterDmxChannel", tx "Yoke_Pan"); ("fSlaveChannelFunction", tx "Lens_Dimmer.Dimmer.Dimmer 1")] []];
     mk CFTMacros [] [mk CMacro [("fName", tx "Reset")]
       [mk CMacroDMX [] [mk CMacroDMXStep [("fDuration", VDbl (decimal 3 2))]
         [mk CMacroDMXValue [("fValue", tx "255/1"); ("fDMXChannel", tx "Yoke_Pan")] []]]]]].
Definition a_fixture : obj :=
  mk CFixture [("fName", tx "Spot"); ("fShortName", tx "SP"); ("fManufacturer", tx "Some & Co"); ("fGuid", VUuid (map N.of_nat (seq 1 16)));
      ("fHasLinkedGuid", VFlag true); ("fLinkedGuid", VUuid (map N.of_nat (seq 200 16)))]
    [mk CAttributeDefinitions []
       [mk CActivationGroups [] [mk CActivationGroup [("fName", tx "PanTilt")] []];
        mk CFeatureGroups [] [mk CFeatureGroup [("fName", tx "Position"); ("fPrettyName", tx "Pos")] [mk CFeature [("fName", tx "PanTilt")] []]];
        mk CAttributes [] [mk CAttribute [("fName", tx "Pan"); ("fFeature", tx "Position.PanTilt"); ("fHasColor", VFlag true); ("fPhysicalUnit", VNat 7)]
          [mk CSubPhysicalUnit [("fType", VNat 1)] []]]];
     mk CWheels [] [a_wheel];
     fresh CPhysicalDescriptions;
     mk CModels [] [mk CModel [("fUniqueName", tx "Box"); ("fLength", VDbl (decimal 7 10))] []];
     mk CGeometries [] [a_geometry; mk CGeometry [("fUniqueName", tx "Pixel")] []];
     mk CDMXModes [] [a_mode];
     mk CRevisions [] [mk CRevision [("fText", tx "first"); ("fDateS", VDate (mkTime 2021 7 8 9 10 11)); ("fUserId", VNat 3)] []];
     mk CFTPresets [] [];
     mk CProtocols [] [mk CFTRDM [("fManufacturerID", VNat 6864); ("fDeviceModelID", VNat 48879)]
         [mk CSoftwareVersionID [("fValue", VNat 16)] [mk CDMXPersonality [("fValue", VNat 1); ("fDMXMode", tx "Standard")] []]];
       mk CArtNet [] [mk CMap [("fKey", VNat 1); ("fValue", VNat 2)] []]]].
Close Scope string_scope.
Lemma a_fixture_ok : obj_ok (0, 0, 0, 0) a_fixture.
Proof. apply obj_okb_ok. vm_compute. reflexivity. Qed.
Lemma a_fixture_complete : lacking a_fixture = 0.
Proof. vm_compute. reflexivity. Qed.
Example C87_case : exists attrs vs', write_entries 1 (members a_wheel) (writes CWheel) [] = Ok attrs /\ attrs = [(T"Name", T"Gobos")] /\
  read_entries (fun _ => 1) attrs (reads CWheel) (fields CWheel, 0) = Ok (vs', 0) /\ same_env (members a_wheel) vs'.
Proof.
  destruct (C87_attributes CWheel (0, 0, 0, 0) (members a_wheel)) as (attrs & vs' & W & _ & R & S & _).
  { apply attrs_okb_ok. vm_compute. reflexivity. }
  exists attrs, vs'. split; [exact W|]. split; [|split; [exact R|exact S]]. vm_compute in W. apply Ok_inj in W. now symmetry.
Qed.
(** The node of a channel with 16 bits. *)
Example C88_channel : exists kids, write_obj (0, 0, 0, 0) a_channel =
  Ok (Elem (T"DMXChannel") [(T"DMXBreak", T"1"); (T"Offset", T"1,2"); (T"Highlight", T"65535/2"); (T"Geometry", T"Yoke");
    (T"InitialFunction", T"Yoke_Pan.Pan.Pan 1")] kids).
Proof. eexists. vm_compute. reflexivity. Qed.
Example C88_case hash buckets : exists n o', write_obj (0, 0, 0, 0) a_fixture = Ok n /\
  read_node hash buckets (0, 0, 0, 0) CFixture n = Ok (o', 0) /\ same_obj a_fixture o' /\ write_obj (0, 0, 0, 0) o' = Ok n.
Proof.
  destruct (C88_tree hash buckets (0, 0, 0, 0) a_fixture a_fixture_ok) as (n & o' & W & R & S & W2). exists n, o'.
  split; [exact W|]. split; [|split; assumption]. rewrite C90_reports, a_fixture_complete in R. exact R.
Qed.
Example C89_case hash buckets : exists n n' o', write_obj (0, 0, 0, 0) a_fixture = Ok n /\ parse (write_buffer [n]) = DOk [Decl declaration; n'] /\
  read_node hash buckets (0, 0, 0, 0) CFixture n' = Ok (o', 0) /\ same_obj a_fixture o'.
Proof.
  destruct (C89_file hash buckets (0, 0, 0, 0) a_fixture a_fixture_ok) as (n & n' & o' & W & P & R & S & W2).
  { apply no_crb_ok. vm_compute. reflexivity. }
  { vm_compute. lia. }
  exists n, n', o'. rewrite C90_reports, a_fixture_complete in R. auto.
Qed.
(** A geometry in a geometry, 99 times; a fixture with it has more levels still. *)
Fixpoint tower (n : nat) : obj := match n with O => mk CGeometry [] [] | S m => mk CGeometry [] [tower m] end.
Theorem C89_refuted : exists o n, obj_ok (0, 0, 0, 0) o /\ no_cr_obj o /\ write_obj (0, 0, 0, 0) o = Ok n /\ parse (write_buffer [n]) = DErr EDepth.
Proof.
  exists (tower 99). assert (O : obj_ok (0, 0, 0, 0) (tower 99)) by (apply obj_okb_ok; vm_compute; reflexivity).
  assert (Q : no_cr_obj (tower 99)) by (apply no_crb_ok; vm_compute; reflexivity).
  destruct (C89_deep (0, 0, 0, 0) (tower 99) O Q) as (n & W & P); [vm_compute; lia|]. exists n. auto.
Qed.
(** A CR in a text comes back as LF. *)
Theorem C89_cr_refuted : exists o n n' o', obj_ok (0, 0, 0, 0) o /\ write_obj (0, 0, 0, 0) o = Ok n /\ parse (write_buffer [n]) = DOk [Decl declaration; n'] /\
  read_node (fun _ => 0) 1 (0, 0, 0, 0) (class o) n' = Ok (o', 0) /\ get "fText" (members o) = VTxt [97; 13; 98] /\ get "fText" (members o') = VTxt [97; 10; 98].
Proof.
  assert (O : obj_ok (0, 0, 0, 0) (mk CRevision [("fText"%string, VTxt [97; 13; 98])] [])).
  { constructor; [|constructor|constructor]. split; [|split].
    - intros e He. repeat (destruct He as [<- |He]; [cbn [shown w w_when]; split; [|split; [exact I|]]|]); try (destruct He; fail);
        try (intros r Hr Hh; repeat (destruct Hr as [<- |Hr]; [discriminate Hh|]); destruct Hr; fail).
      + cbn [w_conv w_field w]. change (val_ok KText (reso_of CRevision (0, 0, 0, 0) (members (mk CRevision [("fText"%string, VTxt [97; 13; 98])] []))) (VTxt [97; 13; 98])).
        cbn [val_ok]. exists [97; 13; 98]. split; [reflexivity|]. repeat constructor; try discriminate; left; lia.
      + apply val_okb_ok. vm_compute. reflexivity.
      + apply val_okb_ok. vm_compute. reflexivity.
      + apply val_okb_ok. vm_compute. reflexivity.
    - intros e r g He Hr _ Hg. repeat (destruct Hr as [<- |Hr]; [destruct Hg|]). destruct Hr.
    - intros g N1 N2. cbn [mk]. cbn [fold_left fst snd]. rewrite get_put. destruct (String.eqb g "fText") eqn:E; [|reflexivity].
      apply String.eqb_eq in E. subst g. contradiction N1. now left. }
  eexists _, _, _, _. split; [exact O|]. split; [vm_compute; reflexivity|]. split; [vm_compute; reflexivity|].
  split; [vm_compute; reflexivity|]. split; vm_compute; reflexivity.
Qed.
(** A display that this library wrote is reported three times. *)
Theorem C90_display_refuted : exists o n o', obj_ok (0, 0, 0, 0) o /\ write_obj (0, 0, 0, 0) o = Ok n /\
  read_node (fun _ => 0) 1 (0, 0, 0, 0) (class o) n = Ok (o', 3).
Proof.
  exists (mk CGeometryDisplay [("fUniqueName", tx "Screen"); ("fTexture", tx "logo.png"); ("fWidth", VNat 640); ("fHeight", VNat 480); ("fIsCurved", VFlag false)] [])%string.
  eexists _, _. split; [apply obj_okb_ok; vm_compute; reflexivity|]. split; [vm_compute; reflexivity|vm_compute; reflexivity].
Qed.
Example C90_case hash buckets : exists n o', write_obj (0, 0, 0, 0) (mk CDmxRelation [("fUniqueName"%string, tx "r")] []) = Ok n /\
  read_node hash buckets (0, 0, 0, 0) CDmxRelation n = Ok (o', 2).
Proof.
  destruct (C88_tree hash buckets (0, 0, 0, 0) (mk CDmxRelation [("fUniqueName"%string, tx "r")] [])) as (n & o' & W & R & _).
  { apply obj_okb_ok. vm_compute. reflexivity. }
  exists n, o'. split; [exact W|]. rewrite C90_reports in R. exact R.
Qed.

Print Assumptions C87_attributes.
Print Assumptions C87_exact.
Print Assumptions C87_double.
Print Assumptions C88_tree.
Print Assumptions C89_file.
Print Assumptions C89_deep.
Print Assumptions C89_refuted.
Print Assumptions C89_cr_refuted.
Print Assumptions C90_reports.
Print Assumptions C90_clean.
Print Assumptions C90_display_refuted.
