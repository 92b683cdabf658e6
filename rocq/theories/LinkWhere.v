(** Lemmas: where the objects of a fixture stand, and the loops over them. *)
From Coq Require Import String List NArith ZArith Bool Lia.
From Verif Require Import Bytes Txt StringModel NumModel EnumModel ObjModel ObjSpec ObjTree ObjCheck ObjMore LookupModel LookupProps LinkModel LinkSpec.
Import ListNotations.
Open Scope N_scope.

Lemma beq_iff c d : cls_beq c d = true <-> c = d.
Proof. unfold cls_beq. destruct (cls_dec c d); split; intros; congruence. Qed.
Lemma kind_class o : kind_of o = class o.
Proof. destruct o; reflexivity. Qed.
Lemma text_field f s : text f s = field f (snd s).
Proof. destruct s as [p [c vs ks]]. reflexivity. Qed.

(** ** Children *)
Lemma numbered_iff p : forall l i q k, In (q, k) (numbered_from p i l) <-> exists j, q = p ++ [(i + j)%nat] /\ nth_error l j = Some k.
Proof.
  induction l as [|x l IH]; intros i q k; cbn [numbered_from].
  - split; [intros []|]. intros ([|j] & _ & H); discriminate H.
  - cbn [In]. rewrite IH. split.
    + intros [[= <- <-]|(j & -> & H)]; [exists O; rewrite Nat.add_0_r; split; reflexivity|]. exists (S j). split; [f_equal; f_equal; lia|exact H].
    + intros ([|j] & -> & H); [injection H as <-; rewrite Nat.add_0_r; left; reflexivity|]. right. exists j. split; [f_equal; f_equal; lia|exact H].
Qed.
Lemma below_iff p o q k : In (q, k) (below (p, o)) <-> exists j, q = p ++ [j] /\ nth_error (children o) j = Some k.
Proof. destruct o as [c vs ks]. apply (numbered_iff p ks O). Qed.
Lemma those_iff c p o q k : In (q, k) (those c (p, o)) <-> exists j, q = p ++ [j] /\ nth_error (children o) j = Some k /\ class k = c.
Proof.
  unfold those. rewrite filter_In, below_iff. unfold class_of. cbn [snd]. rewrite kind_class, beq_iff. split.
  - intros ((j & E & H) & <-). eauto.
  - intros (j & E & H & <-). eauto.
Qed.
Lemma at_app : forall p o q, at_place o (p ++ q) = match at_place o p with Some k => at_place k q | None => None end.
Proof. induction p as [|i p IH]; intros o q; [reflexivity|]. cbn. destruct (nth_error (children o) i); [apply IH|reflexivity]. Qed.
(** The classes on the way. *)
Fixpoint trail (o : obj) (p : place) : list cls :=
  match p with [] => [] | i :: r => match nth_error (children o) i with Some k => class k :: trail k r | None => [] end end.
Lemma trail_app : forall p o q k, at_place o p = Some k -> trail o (p ++ q) = trail o p ++ trail k q.
Proof.
  induction p as [|i p IH]; intros o q k H; cbn in H |- *; [injection H as <-; reflexivity|]. destruct (nth_error (children o) i); [|discriminate].
  cbn. f_equal. apply IH, H.
Qed.
Lemma trail_length : forall p o k, at_place o p = Some k -> List.length (trail o p) = List.length p.
Proof.
  induction p as [|i p IH]; intros o k H; [reflexivity|]. cbn in H |- *. destruct (nth_error (children o) i); [|discriminate]. cbn. f_equal. eapply IH, H.
Qed.
Lemma down_iff : forall cs p o q k, In (q, k) (down cs (p, o)) <-> exists r, q = p ++ r /\ at_place o r = Some k /\ trail o r = cs.
Proof.
  induction cs as [|c cs IH]; intros p o q k; cbn [down].
  - cbn [In]. split.
    + intros [[= -> ->]|[]]. exists []. rewrite app_nil_r. auto.
    + intros (r & -> & H & Tr). left. destruct r as [|i r]; [injection H as ->; rewrite app_nil_r; reflexivity|].
      exfalso. cbn in H, Tr. destruct (nth_error (children o) i); discriminate.
  - rewrite in_flat_map. split.
    + intros ((q', k') & H & D). apply those_iff in H as (j & -> & N & <-). apply IH in D as (r & -> & A & Tr).
      exists (j :: r). rewrite <- app_assoc. split; [reflexivity|]. cbn. rewrite N. split; [exact A|]. rewrite Tr. reflexivity.
    + intros (r & -> & A & Tr). destruct r as [|j r]; [discriminate|]. cbn in A, Tr. destruct (nth_error (children o) j) as [k'|] eqn:N; [|discriminate].
      injection Tr as Tc Tr. exists (p ++ [j], k'). split; [apply those_iff; eauto|]. apply IH. exists r. rewrite <- app_assoc. auto.
Qed.
Lemma down_app : forall a b s, down (a ++ b) s = flat_map (down b) (down a s).
Proof.
  induction a as [|c a IH]; intros b s; [cbn [app down flat_map]; symmetry; apply app_nil_r|]. cbn [app down].
  induction (those c s) as [|x l I]; [reflexivity|]. cbn [flat_map]. rewrite flat_map_app, I, IH. reflexivity.
Qed.
(** ** Which classes stand below which *)
Definition all_cls : list cls :=
  [CActivationGroup; CFeature; CFeatureGroup; CSubPhysicalUnit; CAttribute; CWheel; CWheelSlot;
   CWheelSlotPrismFacet; CWheelSlotAnimationSystem; CModel; CGeometry; CGeometryAxis;
   CGeometryBeamFilter; CGeometryColorFilter; CGeometryGoboFilter; CGeometryShaperFilter;
   CGeometryLamp; CGeometryMediaServerCamera; CGeometryMediaServerLayer;
   CGeometryMediaServerMaster; CGeometryReference; CGeometryDisplay; CGeometryLaser;
   CGeometryWiringObject; CGeometryInventory; CGeometryStructure; CGeometrySupport;
   CGeometryMagnet; CLaserProtocol; CPinPatch; CBreak; CDmxMode; CDmxChannel; CDmxLogicalChannel;
   CDmxChannelFunction; CDmxChannelSet; CDmxSubChannelSet; CDmxRelation; CMacro; CMacroDMX;
   CMacroDMXStep; CMacroDMXValue; CMacroVisual; CMacroVisualStep; CMacroVisualValue; CRevision;
   CUserPreset; CPhysicalEmitter; CMeasurementF; CMeasurementE; CMeasurementPoint; CPoint;
   CDMXProfile; CCRIGroup; CCRI; CGamut; CColorSpace; CFilter; CConnector; CPhysicalDescriptions;
   CFTRDM; CSoftwareVersionID; CDMXPersonality; CProtocols; CMap; CArtNet; CsAcn; CKiNET;
   CPosiStageNet; COpenSoundControl; CCITP; CFixture; CAttributeDefinitions; CActivationGroups;
   CFeatureGroups; CAttributes; CWheels; CModels; CGeometries; CDMXModes; CRevisions; CFTPresets;
   CAdditionalColorSpaces; CGamuts; CFilters; CEmitters; CDMXProfiles; CCRIs; CConnectors;
   CProperties; COperatingTemperature; CWeight; CLegHeight; CDMXChannels; CRelations; CFTMacros].
Lemma all_cls_ok c : existsb (cls_beq c) all_cls = true.
Proof. destruct c; vm_compute; reflexivity. Qed.
Definition parents (d : cls) : list cls := filter (fun c => existsb (cls_beq d) (child_classes c)) all_cls.
Lemma parents_ok c d : In d (child_classes c) -> In c (parents d).
Proof.
  intros H. apply filter_In. split; [|apply existsb_exists; exists d; split; [exact H|apply beq_iff; reflexivity]].
  destruct (proj1 (existsb_exists _ _) (all_cls_ok c)) as (x & I & E). apply beq_iff in E. subst x. exact I.
Qed.
Lemma well_child o i k : well_placed o -> nth_error (children o) i = Some k -> well_placed k /\ In (class o) (parents (class k)).
Proof.
  intros [c vs ks Fc Fw] H. cbn in H. apply nth_error_In in H. rewrite Forall_forall in Fc, Fw. split; [apply Fw, H|]. apply parents_ok. apply (Fc k H).
Qed.
Lemma well_at : forall p o k, well_placed o -> at_place o p = Some k -> well_placed k.
Proof.
  induction p as [|i p IH]; intros o k W H; [injection H as <-; exact W|]. cbn in H. destruct (nth_error (children o) i) as [x|] eqn:E; [|discriminate].
  apply (IH x k); [|exact H]. exact (proj1 (well_child o i x W E)).
Qed.
(** The object above. *)
Lemma above root p k : well_placed root -> class root = CFixture -> at_place root p = Some k -> class k <> CFixture ->
  exists p' i o, p = p' ++ [i] /\ at_place root p' = Some o /\ nth_error (children o) i = Some k /\ In (class o) (parents (class k)) /\
    trail root p = trail root p' ++ [class k].
Proof.
  intros W R A N. destruct (exists_last (l := p)) as (p' & i & E).
  { intros ->. injection A as <-. contradiction. }
  subst p. rewrite at_app in A. destruct (at_place root p') as [o|] eqn:E; [|discriminate]. cbn in A. destruct (nth_error (children o) i) as [x|] eqn:H; [|discriminate].
  injection A as ->. exists p', i, o. split; [reflexivity|]. split; [exact E|]. split; [exact H|]. split.
  - exact (proj2 (well_child o i k (well_at p' root o W E) H)).
  - rewrite (trail_app _ _ _ _ E). cbn. rewrite H. reflexivity.
Qed.
Lemma no_fixture_below root p k : well_placed root -> class root = CFixture -> at_place root p = Some k -> class k = CFixture -> p = [].
Proof.
  intros W R A N. destruct p as [|a p0]; [reflexivity|]. exfalso. destruct (exists_last (l := a :: p0)) as (p' & i & E); [discriminate|]. rewrite E in A.
  rewrite at_app in A. destruct (at_place root p') as [o|] eqn:F; [|discriminate]. cbn in A. destruct (nth_error (children o) i) as [x|] eqn:H; [|discriminate].
  injection A as ->. pose proof (proj2 (well_child o i k (well_at p' root o W F) H)) as I. rewrite N in I. vm_compute in I. exact I.
Qed.
Fixpoint chain (fuel : nat) (d : cls) : option (list cls) :=
  if cls_beq d CFixture then Some []
  else match fuel with
       | O => None
       | S n => match parents d with
                | [c] => match chain n c with Some l => Some (l ++ [d]) | None => None end
                | _ => None
                end
       end.
Section Fixture.
Variable root : obj.
Hypothesis W : well_placed root.
Hypothesis R : class root = CFixture.
Let top : spot := ([], root).
Lemma chain_trail : forall fuel cs p k, chain fuel (class k) = Some cs -> at_place root p = Some k -> trail root p = cs.
Proof.
  induction fuel as [|n IH]; intros cs p k C A; cbn [chain] in C; destruct (cls_beq (class k) CFixture) eqn:E; try discriminate.
  - injection C as <-. apply beq_iff in E. rewrite (no_fixture_below root p k W R A E). reflexivity.
  - injection C as <-. apply beq_iff in E. rewrite (no_fixture_below root p k W R A E). reflexivity.
  - assert (N : class k <> CFixture) by (intros D; rewrite D in E; discriminate). destruct (above root p k W R A N) as (p' & i & o & -> & Ao & _ & I & Tr).
    destruct (parents (class k)) as [|c [|]] eqn:P; try discriminate. destruct I as [->|[]]. destruct (chain n (class o)) as [l|] eqn:Cn; [|discriminate]. injection C as <-.
    rewrite Tr. f_equal. exact (IH l p' o Cn Ao).
Qed.
Lemma found_iff fuel d cs q k : chain fuel d = Some cs -> cs <> [] -> (In (q, k) (down cs top) <-> at_place root q = Some k /\ class k = d).
Proof.
  intros C N. unfold top. rewrite down_iff. split.
  - intros (r & -> & A & Tr). split; [exact A|].
    assert (L : last cs CFixture = d).
    { destruct fuel; cbn [chain] in C; destruct (cls_beq d CFixture); try discriminate; try (injection C as <-; contradiction).
      destruct (parents d) as [|? [|]]; try discriminate. destruct (chain fuel c); [|discriminate]. injection C as <-. apply last_last. }
    destruct (exists_last N) as (cs' & e & E). rewrite E, last_last in L. subst e.
    destruct r as [|a r0]; [cbn in Tr; subst cs; destruct N; reflexivity|]. destruct (exists_last (l := a :: r0)) as (r' & i & Er); [discriminate|]. rewrite Er in A, Tr. cbn in A.
    rewrite at_app in A. destruct (at_place root r') as [o|] eqn:Ao; [|discriminate]. rewrite (trail_app _ _ _ _ Ao) in Tr. cbn in A, Tr.
    destruct (nth_error (children o) i) as [x|]; [|discriminate]. injection A as ->. rewrite E in Tr. apply app_inj_tail in Tr as (_ & ->). reflexivity.
  - intros (A & <-). exists q. split; [reflexivity|]. split; [exact A|]. eapply chain_trail; eassumption.
Qed.
End Fixture.

(** ** Geometries *)
Lemma is_geo_iff c : is_geo c = true <-> In c geometry_classes.
Proof.
  split; intros H.
  - apply existsb_exists in H as (k & I & E). apply beq_iff in E. subst c.
    assert (F : forallb (fun k => existsb (cls_beq (snd k)) geometry_classes) (s_kinds geometries) = true) by (vm_compute; reflexivity).
    rewrite forallb_forall in F. destruct (proj1 (existsb_exists _ _) (F k I)) as (x & Ix & E). apply beq_iff in E. rewrite E. exact Ix.
  - repeat (destruct H as [<- |H]; [reflexivity|]). destruct H.
Qed.
Lemma geo_parents c d : In d geometry_classes -> In c (parents d) -> c = CGeometries \/ In c geometry_classes.
Proof.
  intros Hd Hc. assert (E : forallb (fun d => forallb (fun c => cls_beq c CGeometries || is_geo c) (parents d)) geometry_classes = true) by (vm_compute; reflexivity).
  rewrite forallb_forall in E. specialize (E d Hd). rewrite forallb_forall in E. specialize (E c Hc). apply orb_prop in E as [E|E]; [left; apply beq_iff, E|right; apply is_geo_iff, E].
Qed.
Lemma geos_in_iff p o q k : In (q, k) (geos_in (p, o)) <-> exists j, q = p ++ [j] /\ nth_error (children o) j = Some k /\ In (class k) geometry_classes.
Proof.
  unfold geos_in. rewrite filter_In, below_iff. unfold class_of. cbn [snd]. rewrite kind_class, is_geo_iff. split.
  - intros ((j & E & H) & I). eauto.
  - intros (j & E & H & I). eauto.
Qed.
Lemma geo_of_eq p o : geo_of p o = Geo (field "fUniqueName" o) p (map (fun s => geo_of (fst s) (snd s)) (geos_in (p, o))).
Proof.
  destruct o as [c vs ks]. cbn [geo_of]. f_equal. unfold geos_in, below. cbn [snd fst]. generalize O. induction ks as [|k ks IH]; intros i; [reflexivity|].
  cbn [numbered_from filter]. unfold class_of at 1. cbn [snd]. destruct (is_geo (kind_of k)); [cbn [map fst snd]; f_equal|]; apply IH.
Qed.
Fixpoint geo_tree (p : place) (o : obj) : list spot :=
  match o with
  | Obj c vs ks => (p, Obj c vs ks) ::
    (fix go (i : nat) (l : list obj) : list spot :=
      match l with
      | [] => []
      | k :: r => if is_geo (kind_of k) then geo_tree (p ++ [i]) k ++ go (S i) r else go (S i) r
      end) O ks
  end.
Lemma geo_tree_eq p o : geo_tree p o = (p, o) :: flat_map (fun s => geo_tree (fst s) (snd s)) (geos_in (p, o)).
Proof.
  destruct o as [c vs ks]. cbn [geo_tree]. f_equal. unfold geos_in, below. cbn [snd fst]. generalize O. induction ks as [|k ks IH]; intros i; [reflexivity|].
  cbn [numbered_from filter]. unfold class_of at 1. cbn [snd]. destruct (is_geo (kind_of k)); [cbn [flat_map fst snd]; f_equal|]; apply IH.
Qed.
Lemma in_geos_child {p o s} : In s (geos_in (p, o)) -> In (snd s) (children o).
Proof. destruct s as (q, k). intros H. apply geos_in_iff in H as (j & _ & H & _). eapply nth_error_In, H. Qed.
Lemma flatten_tree o : forall p, flatten (geo_of p o) = map unique_name_at (geo_tree p o).
Proof.
  induction o as [c vs ks IH] using obj_induction. intros p. rewrite geo_of_eq, geo_tree_eq. cbn [flatten map]. f_equal.
  assert (F : Forall (fun s => forall q, flatten (geo_of q (snd s)) = map unique_name_at (geo_tree q (snd s))) (geos_in (p, Obj c vs ks))).
  { apply Forall_forall. intros s H. rewrite Forall_forall in IH. apply IH. exact (in_geos_child H). }
  induction F as [|s l H _ I]; [reflexivity|]. cbn [map flat_map]. rewrite map_app, H, I. reflexivity.
Qed.
Lemma geo_links_tree hash n root o : forall p, geo_links hash n root p o = flat_map (geo_own hash n root) (geo_tree p o).
Proof.
  assert (E : forall p o, geo_links hash n root p o = geo_own hash n root (p, o) ++ flat_map (fun s => geo_links hash n root (fst s) (snd s)) (geos_in (p, o))).
  { clear. intros p [c vs ks]. cbn [geo_links]. f_equal. unfold geos_in, below. cbn [snd fst]. generalize O. induction ks as [|k ks IH]; intros i; [reflexivity|].
    cbn [numbered_from filter]. unfold class_of at 1. cbn [snd]. destruct (is_geo (kind_of k)); [cbn [flat_map fst snd]; f_equal|]; apply IH. }
  induction o as [c vs ks IH] using obj_induction. intros p. rewrite E, geo_tree_eq. cbn [flat_map]. f_equal.
  assert (F : Forall (fun s => forall q, geo_links hash n root q (snd s) = flat_map (geo_own hash n root) (geo_tree q (snd s))) (geos_in (p, Obj c vs ks))).
  { apply Forall_forall. intros s H. rewrite Forall_forall in IH. apply IH. exact (in_geos_child H). }
  induction F as [|s l H _ I]; [reflexivity|]. cbn [map flat_map]. rewrite flat_map_app, H, I. reflexivity.
Qed.
Lemma geo_tree_iff o : forall p q k, In (q, k) (geo_tree p o) <-> exists r, q = p ++ r /\ at_place o r = Some k /\ Forall (fun c => In c geometry_classes) (trail o r).
Proof.
  induction o as [c vs ks IH] using obj_induction. intros p q k. rewrite geo_tree_eq. cbn [In]. rewrite in_flat_map. rewrite Forall_forall in IH. split.
  - intros [[= <- <-]|((q', k') & H & D)]; [exists []; rewrite app_nil_r; repeat split; constructor|]. cbn [fst snd] in D.
    pose proof (in_geos_child H) as C. apply geos_in_iff in H as (j & -> & N & G). apply (IH k' C) in D as (r & -> & A & Tr).
    exists (j :: r). rewrite <- app_assoc. split; [reflexivity|]. cbn [at_place trail]. rewrite N. split; [exact A|]. constructor; assumption.
  - intros (r & -> & A & Tr). destruct r as [|j r]; [left; injection A as <-; rewrite app_nil_r; reflexivity|]. right. cbn [at_place trail] in A, Tr.
    destruct (nth_error (children (Obj c vs ks)) j) as [k'|] eqn:N; [|discriminate]. inversion Tr; subst. exists (p ++ [j], k').
    assert (G : In (p ++ [j], k') (geos_in (p, Obj c vs ks))) by (apply geos_in_iff; eauto). split; [exact G|]. cbn [fst snd]. apply (IH k' (in_geos_child G)).
    exists r. rewrite <- app_assoc. auto.
Qed.
Section Geometries.
Variable root : obj.
Hypothesis W : well_placed root.
Hypothesis R : class root = CFixture.
Definition all_geos : list spot := flat_map (fun s => geo_tree (fst s) (snd s)) (geo_spots root).
Lemma geo_trail : forall q k, at_place root q = Some k -> In (class k) geometry_classes ->
  exists j i r g x, q = j :: i :: r /\ nth_error (children root) j = Some g /\ class g = CGeometries /\ nth_error (children g) i = Some x /\
    In (class x) geometry_classes /\ at_place x r = Some k /\ Forall (fun c => In c geometry_classes) (trail x r).
Proof.
  induction q as [|i q IH] using rev_ind; intros k A G.
  - injection A as <-. rewrite R in G. apply is_geo_iff in G. discriminate G.
  - assert (N : class k <> CFixture) by (intros D; rewrite D in G; apply is_geo_iff in G; discriminate G).
    destruct (above root (q ++ [i]) k W R A N) as (q' & i' & o & E & Ao & Nk & I & _). apply app_inj_tail in E as (-> & ->).
    destruct (geo_parents _ _ G I) as [Ec|Eg].
    + pose proof (chain_trail root W R 9 [CGeometries] q' o) as C. rewrite Ec in C. specialize (C eq_refl Ao). pose proof (trail_length q' root o Ao) as L. rewrite C in L.
      destruct q' as [|j [|]]; try discriminate L. cbn in Ao. destruct (nth_error (children root) j) as [g|] eqn:Ng; [|discriminate]. injection Ao as ->.
      exists j, i', [], o, k. cbn. auto 10.
    + destruct (IH o Ao Eg) as (j & i & r & g & x & -> & Ng & Cg & Nx & Gx & Ax & Tr). exists j, i, (r ++ [i']), g, x. cbn [app]. repeat (split; [auto; fail|]).
      split; [rewrite at_app, Ax; cbn; rewrite Nk; reflexivity|]. rewrite (trail_app _ _ _ _ Ax). cbn. rewrite Nk. apply Forall_app. auto.
Qed.
Lemma all_geos_iff q k : In (q, k) all_geos <-> at_place root q = Some k /\ In (class k) geometry_classes.
Proof.
  unfold all_geos, geo_spots. rewrite in_flat_map. split.
  - intros ((p, o) & H & D). cbn [fst snd] in D. apply in_flat_map in H as ((p', g) & Hg & H). apply down_iff in Hg as (r & -> & Ag & _). apply geos_in_iff in H as (j & -> & N & G).
    apply geo_tree_iff in D as (r' & -> & A & Tr). cbn [app]. rewrite !at_app, Ag. cbn. rewrite N. split; [exact A|].
    destruct r' as [|b r0]; [injection A as <-; exact G|]. destruct (exists_last (l := b :: r0)) as (r1 & i & E); [discriminate|]. rewrite E in A, Tr.
    rewrite at_app in A. destruct (at_place o r1) as [y|] eqn:Ay; [|discriminate]. rewrite (trail_app _ _ _ _ Ay) in Tr. cbn in A, Tr.
    destruct (nth_error (children y) i) as [z|]; [|discriminate]. injection A as ->. apply Forall_app in Tr as (_ & Tr). inversion Tr; assumption.
  - intros (A & G). destruct (geo_trail q k A G) as (j & i & r & g & x & -> & Ng & Cg & Nx & Gx & Ax & Tr). exists ([j; i], x). split.
    + apply in_flat_map. exists ([j], g). split; [apply down_iff; exists [j]; cbn; rewrite Ng, Cg; auto|]. apply geos_in_iff. exists i. auto.
    + apply geo_tree_iff. exists r. auto.
Qed.
Lemma geo_spots_iff q k : In (q, k) (geo_spots root) <-> at_place root q = Some k /\ In (class k) geometry_classes /\ List.length q = 2%nat.
Proof.
  unfold geo_spots. rewrite in_flat_map. split.
  - intros ((p', g) & Hg & H). apply down_iff in Hg as (r & -> & Ag & Tr). pose proof (trail_length _ _ _ Ag) as L. rewrite Tr in L.
    apply geos_in_iff in H as (j & -> & N & G). cbn [app]. rewrite at_app, Ag. cbn. rewrite N. split; [reflexivity|]. split; [exact G|]. rewrite app_length, <- L. reflexivity.
  - intros (A & G & L). destruct (geo_trail q k A G) as (j & i & r & g & x & -> & Ng & Cg & Nx & Gx & Ax & Tr). destruct r; [|discriminate L]. injection Ax as ->.
    exists ([j], g). split; [apply down_iff; exists [j]; cbn; rewrite Ng, Cg; auto|]. apply geos_in_iff. exists i. auto.
Qed.
Lemma geos_flat : flat_map flatten (geos root) = map unique_name_at all_geos.
Proof.
  unfold geos, all_geos. induction (geo_spots root) as [|s l IH]; [reflexivity|]. cbn [map flat_map]. rewrite map_app, flatten_tree, IH. reflexivity.
Qed.
Lemma all_geo_links_flat hash n : all_geo_links hash n root = flat_map (geo_own hash n root) all_geos.
Proof.
  unfold all_geo_links, all_geos. induction (geo_spots root) as [|s l IH]; [reflexivity|]. cbn [map flat_map]. rewrite flat_map_app, geo_links_tree, IH. reflexivity.
Qed.
End Geometries.
