(** Lemmas: the lookups of a fixture find the object that is meant. *)
From Coq Require Import String List NArith ZArith Bool Lia.
From Verif Require Import Bytes Txt StringModel NumModel EnumModel ObjModel ObjSpec ObjTree ObjCheck ObjMore LookupModel LookupProps LinkModel LinkSpec LinkWhere.
Import ListNotations.
Open Scope N_scope.

(** ** Lists of names *)
Lemma look {A} (l : list (list N * A)) t (M : A -> list N -> Prop) : (forall q t, In (t, q) l <-> M q t) ->
  (exists q, M q t /\ forall q' t', M q' t' -> same_name t' t -> q' = q) -> forall q, linear l t = Some q <-> M q t.
Proof.
  intros H (q0 & M0 & U) q. split.
  - intros E. apply linear_some in E as (a & k & b & -> & Sn & _). assert (Mq : M q k) by (apply H, in_elt). rewrite (U _ _ Mq Sn). exact M0.
  - intros Mq. rewrite (U q t Mq eq_refl). clear q Mq. apply H in M0. clear -H U M0. assert (U' : forall q' t', In (t', q') l -> same_name t' t -> q' = q0) by (intros q' t' I; apply U, H, I).
    clear H U. unfold linear. induction l as [|(k, x) l IH]; [destruct M0|]. cbn [find fst]. destruct (txeq k t) eqn:E.
    + apply txeq_same_name in E. cbn [snd]. rewrite (U' x k (or_introl eq_refl) E). reflexivity.
    + destruct M0 as [[= -> ->]|M0]; [|apply IH; [exact M0|intros q' t' I; apply U'; right; exact I]].
      assert (X : txeq t t = true) by (apply txeq_same_name; reflexivity). congruence.
Qed.
Lemma combine_seq {A} : forall (l : list A) a i x, In (i, x) (combine (seq a (List.length l)) l) <-> exists j, i = (a + j)%nat /\ nth_error l j = Some x.
Proof.
  induction l as [|y l IH]; intros a i x; cbn [List.length seq combine].
  - split; [intros []|]. intros ([|j] & _ & H); discriminate H.
  - cbn [In]. rewrite IH. split.
    + intros [[= <- <-]|(j & -> & H)]; [exists O; split; [lia|reflexivity]|]. exists (S j). split; [lia|exact H].
    + intros ([|j] & -> & H); [left; injection H as <-; f_equal; lia|]. right. exists j. split; [lia|exact H].
Qed.
Lemma nth_numbered p : forall l i j, nth_error (numbered_from p i l) j = match nth_error l j with Some k => Some (p ++ [(i + j)%nat], k) | None => None end.
Proof.
  induction l as [|x l IH]; intros i [|j]; cbn [numbered_from nth_error]; try reflexivity; [rewrite Nat.add_0_r; reflexivity|]. rewrite IH.
  destruct (nth_error l j); [|reflexivity]. do 3 f_equal. f_equal. lia.
Qed.
Lemma nth_below p o j : nth_error (below (p, o)) j = match nth_error (children o) j with Some k => Some (p ++ [j], k) | None => None end.
Proof. destruct o as [c vs ks]. apply (nth_numbered p ks O j). Qed.
Lemma filter_all {A} (f : A -> bool) l : (forall x, In x l -> f x = true) -> filter f l = l.
Proof. induction l as [|x l IH]; intros H; [reflexivity|]. cbn [filter]. rewrite (H x (or_introl eq_refl)). f_equal. apply IH. intros y I. apply H. right. exact I. Qed.
(** Objects that have children of one class only. *)
Lemma those_below c p o : well_placed o -> child_classes (class o) = [c] -> those c (p, o) = below (p, o).
Proof.
  intros Wo E. unfold those. apply filter_all. intros (q, k) H. apply below_iff in H as (j & _ & H). unfold class_of. cbn [snd]. rewrite kind_class.
  apply beq_iff. destruct Wo as [d vs ks F _]. cbn in E, H. rewrite E in F. rewrite Forall_forall in F. apply nth_error_In in H. destruct (F k H) as [D|[]]. exact D.
Qed.

Section Fixture.
Variable root : obj.
Hypothesis W : well_placed root.
Hypothesis R : class root = CFixture.
Variable hash : list N -> N.
Variable n : N.
Let top : spot := ([], root).
Lemma names_iff f d fuel cs q t : chain fuel d = Some cs -> cs <> [] -> (In (t, q) (map (fun s => (text f s, fst s)) (down cs top)) <-> has root q d f t).
Proof.
  intros C N. rewrite in_map_iff. split.
  - intros ((q', k) & [= <- <-] & I). apply (found_iff root W R _ _ _ _ _ C N) in I as (A & <-). rewrite text_field. exists k. auto.
  - intros (k & A & Ck & <-). exists (q, k). rewrite text_field. split; [reflexivity|]. apply (found_iff root W R _ _ _ _ _ C N). auto.
Qed.
Lemma kids_iff d c fuel cs q k : parents d = [c] -> d <> CFixture -> chain fuel c = Some cs -> cs <> [] ->
  ((exists a, In a (down cs top) /\ In (q, k) (those d a)) <-> at_place root q = Some k /\ class k = d).
Proof.
  intros P D C N. split.
  - intros ((p, o) & I & H). apply (found_iff root W R _ _ _ _ _ C N) in I as (A & _). apply those_iff in H as (j & -> & H & E). split; [|exact E].
    rewrite at_app, A. cbn. rewrite H. reflexivity.
  - intros (A & <-). destruct (above root q k W R A D) as (p & i & o & -> & Ao & Nk & I & _). rewrite P in I. destruct I as [E|[]].
    exists (p, o). split; [apply (found_iff root W R _ _ _ _ _ C N); auto|]. apply those_iff. eauto.
Qed.
Lemma models_iff q t : In (t, q) (models root) <-> has root q CModel "fUniqueName" t.
Proof. apply (names_iff "fUniqueName" CModel 9); [vm_compute; reflexivity|discriminate]. Qed.
Lemma wheels_iff q t : In (t, q) (wheels root) <-> has root q CWheel "fName" t.
Proof. apply (names_iff "fName" CWheel 9); [vm_compute; reflexivity|discriminate]. Qed.
Lemma emitters_iff q t : In (t, q) (emitters root) <-> has root q CPhysicalEmitter "fName" t.
Proof. apply (names_iff "fName" CPhysicalEmitter 9); [vm_compute; reflexivity|discriminate]. Qed.
Lemma filters_iff q t : In (t, q) (filters root) <-> has root q CFilter "fName" t.
Proof. apply (names_iff "fName" CFilter 9); [vm_compute; reflexivity|discriminate]. Qed.
Lemma gamuts_iff q t : In (t, q) (gamuts root) <-> has root q CGamut "fUniqueName" t.
Proof. apply (names_iff "fUniqueName" CGamut 9); [vm_compute; reflexivity|discriminate]. Qed.
Lemma profiles_iff q t : In (t, q) (profiles root) <-> has root q CDMXProfile "fUniqueName" t.
Proof. apply (names_iff "fUniqueName" CDMXProfile 9); [vm_compute; reflexivity|discriminate]. Qed.
Lemma groups_iff q t : In (t, q) (groups root) <-> has root q CActivationGroup "fName" t.
Proof. apply (names_iff "fName" CActivationGroup 9); [vm_compute; reflexivity|discriminate]. Qed.
Lemma modes_names_iff q t : In (t, q) (map name_at (modes root)) <-> has root q CDmxMode "fName" t.
Proof. apply (names_iff "fName" CDmxMode 9); [vm_compute; reflexivity|discriminate]. Qed.
Lemma attributes_iff q k : In (q, k) (attributes root) <-> at_place root q = Some k /\ class k = CAttribute.
Proof. apply (found_iff root W R 9); [vm_compute; reflexivity|discriminate]. Qed.
Lemma modes_iff q k : In (q, k) (modes root) <-> at_place root q = Some k /\ class k = CDmxMode.
Proof. apply (found_iff root W R 9); [vm_compute; reflexivity|discriminate]. Qed.
Lemma spaces_iff p q t : In (t, q) (spaces root) <-> means root p RColorSpace q t.
Proof.
  unfold spaces, unique_name_at. rewrite in_map_iff. cbn [means]. split.
  - intros ((q', k) & [= <- <-] & I). apply down_iff in I as (r & -> & A & Tr). cbn [app]. rewrite text_field. cbn [snd].
    destruct r as [|a [|b [|c [|]]]]; try (cbn in A, Tr; repeat match type of A with context [nth_error ?x ?y] => destruct (nth_error x y); try discriminate end; discriminate).
    cbn in A, Tr. destruct (nth_error (children root) a) as [x|] eqn:E1; [|discriminate]. destruct (nth_error (children x) b) as [y|] eqn:E2; [|discriminate].
    destruct (nth_error (children y) c) as [z|] eqn:E3; [|discriminate]. injection A as ->. injection Tr as T1 T2 T3.
    exists [a; b], c, y. cbn. rewrite E1, E2. split; [reflexivity|]. split; [reflexivity|]. split; [exact T2|]. exists k. cbn. rewrite E1, E2, E3. auto.
  - intros (q' & i & a & -> & A & Ca & k & Ak & Ck & <-). exists (q' ++ [i], k). rewrite text_field. cbn [fst snd]. split; [reflexivity|].
    apply down_iff. exists (q' ++ [i]). split; [reflexivity|]. split; [exact Ak|]. rewrite (trail_app _ _ _ _ A).
    rewrite (chain_trail root W R 9 [CPhysicalDescriptions; CAdditionalColorSpaces] q' a); [|rewrite Ca; vm_compute; reflexivity|exact A].
    rewrite at_app, A in Ak. cbn in Ak |- *. destruct (nth_error (children a) i); [|discriminate]. injection Ak as ->. rewrite Ck. reflexivity.
Qed.
Lemma unit_field s : unit_at s = (unit_reference (snd s), fst s).
Proof. destruct s as (p, [c vs ks]). reflexivity. Qed.
Lemma units_iff p q t : In (t, q) (List.concat (units root)) <-> means root p RUnit q t.
Proof.
  unfold units. rewrite <- flat_map_concat_map, in_flat_map. cbn [means]. split.
  - intros (a & Ia & I). apply in_map_iff in I as ((q', k) & E & I). rewrite unit_field in E. injection E as <- <-. exists k. cbn [snd].
    assert (H : at_place root q' = Some k /\ class k = CSubPhysicalUnit); [|destruct H; auto].
    apply (kids_iff CSubPhysicalUnit CAttribute 9 [CAttributeDefinitions; CAttributes; CAttribute]); [vm_compute; reflexivity|discriminate|vm_compute; reflexivity|discriminate|]. exists a. auto.
  - intros (k & A & Ck & ->).
    assert (H : exists a, In a (attributes root) /\ In (q, k) (those CSubPhysicalUnit a)).
    { apply (kids_iff CSubPhysicalUnit CAttribute 9 [CAttributeDefinitions; CAttributes; CAttribute]); [vm_compute; reflexivity|discriminate|vm_compute; reflexivity|discriminate|]. auto. }
    destruct H as (a & Ia & I). exists a. split; [exact Ia|]. apply in_map_iff. exists (q, k). rewrite unit_field. auto.
Qed.
Lemma features_iff p x t : In (t, x) (List.concat (features root)) <-> exists q, x = To q /\ means root p RFeature q t.
Proof.
  unfold features. rewrite <- flat_map_concat_map, in_flat_map. cbn [means]. split.
  - intros ((q', g) & Ig & I). apply in_map_iff in I as ((q, f) & [= <- <-] & I). exists q. split; [reflexivity|]. rewrite !text_field. cbn [snd].
    apply (found_iff root W R 9 CFeatureGroup) in Ig as (Ag & Cg); [|vm_compute; reflexivity|discriminate]. apply those_iff in I as (j & -> & N & Cf).
    exists q', j, g, f. rewrite at_app, Ag. cbn. rewrite N. auto.
  - intros (q & -> & q' & i & g & f & -> & Ag & Af & Cf & ->). rewrite at_app, Ag in Af. cbn in Af. destruct (nth_error (children g) i) as [f'|] eqn:N; [|discriminate]. injection Af as ->.
    exists (q', g). split.
    + apply (found_iff root W R 9 CFeatureGroup); [vm_compute; reflexivity|discriminate|]. split; [exact Ag|].
      pose proof (proj2 (well_child g i f (well_at _ _ _ W Ag) N)) as I. rewrite Cf in I. assert (P : parents CFeature = [CFeatureGroup]) by (vm_compute; reflexivity). rewrite P in I. destruct I as [I|[]]. symmetry. exact I.
    + apply in_map_iff. exists (q' ++ [i], f). rewrite !text_field. split; [reflexivity|]. apply those_iff. eauto.
Qed.
Lemma geos_iff q t : In (t, q) (flat_map flatten (geos root)) <-> geometry_at root q t.
Proof.
  rewrite geos_flat. unfold unique_name_at. rewrite in_map_iff. split.
  - intros ((q', k) & [= <- <-] & I). apply (all_geos_iff root W R) in I as (A & G). rewrite text_field. exists k. auto.
  - intros (k & A & G & <-). exists (q, k). rewrite text_field. split; [reflexivity|]. apply (all_geos_iff root W R). auto.
Qed.
Lemma top_geos_iff p q t : In (t, q) (map unique_name_at (geo_spots root)) <-> means root p RTopGeometry q t.
Proof.
  unfold unique_name_at. rewrite in_map_iff. cbn [means]. split.
  - intros ((q', k) & [= <- <-] & I). apply (geo_spots_iff root W R) in I as (A & G & L). rewrite text_field. split; [exists k; auto|exact L].
  - intros ((k & A & G & <-) & L). exists (q, k). rewrite text_field. split; [reflexivity|]. apply (geo_spots_iff root W R). auto.
Qed.

(** ** Channels and functions *)
Definition pure_function (s : spot) : @func place := mkFunc (text "fName" s) (Some (text "fAttribute" s)) (fst s).
Definition pure_logical (s : spot) : @logical place := mkLog (Some (text "fAttribute" s)) (map pure_function (those CDmxChannelFunction s)).
Definition pure_channel (s : spot) : @channel place :=
  mkCh [] (match text "fGeomRef" s with [] => None | t => Some t end) (map pure_logical (those CDmxLogicalChannel s)) (fst s).
Lemma pure_complete s : complete (pure_channel s).
Proof.
  split; [reflexivity|]. split.
  - intros l r E. cbn in E. destruct (those CDmxLogicalChannel s); [discriminate|]. injection E as <- _. discriminate.
  - intros l f Il If _. cbn in Il. apply in_map_iff in Il as (x & <- & _). cbn in If. apply in_map_iff in If as (y & <- & _). discriminate.
Qed.
Lemma channel_text_pure p c : at_place root p = Some c -> class c = CDmxChannel -> channel_text (pure_channel (p, c)) = channel_reference c.
Proof.
  intros A C. unfold channel_text, channel_reference, pure_channel. cbn [h_geo h_logical]. rewrite text_field. cbn [snd]. f_equal; [destruct (field "fGeomRef" c); reflexivity|]. f_equal.
  rewrite those_below; [|exact (well_at _ _ _ W A)|rewrite C; reflexivity]. pose proof (nth_below p c 0) as E. destruct (below (p, c)) as [|s l], (children c) as [|k ks]; try discriminate E; [reflexivity|].
  injection E as ->. cbn. rewrite text_field. reflexivity.
Qed.
(** The functions of a channel. *)
Lemma channel_keys_iff p c q t : at_place root p = Some c -> class c = CDmxChannel ->
  (In (t, q) (function_keys [pure_channel (p, c)]) <-> function_at root q t /\ exists i j, q = p ++ [i; j]).
Proof.
  intros A C. pose proof (well_at _ _ _ W A) as Wc. unfold function_keys. cbn [flat_map]. rewrite app_nil_r, in_flat_map. rewrite (channel_text_pure p c A C). unfold pure_channel. cbn [h_logical].
  rewrite those_below; [|exact Wc|rewrite C; reflexivity].
  assert (Cl : forall i l, nth_error (children c) i = Some l -> class l = CDmxLogicalChannel).
  { intros i l N. destruct Wc as [d vs ks F _]. cbn in C, N. subst d. rewrite Forall_forall in F. apply nth_error_In in N. destruct (F l N) as [<-|[]]. reflexivity. }
  split.
  - intros (l0 & Il & H). apply in_map_iff in Il as ((p', l) & <- & Il). apply below_iff in Il as (i & -> & Nl). unfold pure_logical in H. cbn [l_attr l_funcs text_or_empty] in H.
    apply in_map_iff in H as ((j', f0) & E & Hf). cbn [fst snd] in E. injection E as <- <-. apply combine_seq in Hf as (j & -> & Nf).
    assert (Al : at_place root (p ++ [i]) = Some l) by (rewrite at_app, A; cbn; rewrite Nl; reflexivity).
    rewrite those_below in Nf; [|exact (well_at _ _ _ W Al)|rewrite (Cl i l Nl); reflexivity].
    rewrite nth_error_map, nth_below in Nf. destruct (nth_error (children l) j) as [f|] eqn:Nj; [|discriminate]. injection Nf as <-. cbn [pure_function f_id f_name f_attr fst].
    rewrite <- app_assoc. cbn [app]. split; [|eauto]. exists p, i, j, c, l, f. split; [reflexivity|]. split; [exact A|]. split; [exact Al|].
    assert (Af : at_place root (p ++ [i; j]) = Some f) by (change [i; j] with ([i] ++ [j]); rewrite app_assoc, at_app, Al; cbn; rewrite Nj; reflexivity). split; [exact Af|].
    split.
    + pose proof (well_at _ _ _ W Al) as Wl. pose proof (Cl i l Nl) as El. destruct Wl as [d vs ks F _]. cbn in El, Nj. subst d. rewrite Forall_forall in F. apply nth_error_In in Nj. destruct (F f Nj) as [<-|[]]. reflexivity.
    + unfold function_reference, own_name, pure_function. rewrite !text_field. reflexivity.
  - intros ((p0 & i & j & c0 & l & f & -> & A0 & Al & Af & Cf & ->) & (i' & j' & E)).
    assert (X : p0 = p /\ i = i' /\ j = j').
    { change [i; j] with ([i] ++ [j]) in E. change [i'; j'] with ([i'] ++ [j']) in E. rewrite !app_assoc in E. apply app_inj_tail in E as (E & ->). apply app_inj_tail in E as (-> & ->). auto. }
    destruct X as (-> & <- & <-). rewrite A in A0. injection A0 as <-. assert (Nl : nth_error (children c) i = Some l).
    { rewrite at_app, A in Al. cbn in Al. destruct (nth_error (children c) i); [exact Al|discriminate]. }
    assert (Nj : nth_error (children l) j = Some f).
    { change [i; j] with ([i] ++ [j]) in Af. rewrite app_assoc, at_app, Al in Af. cbn in Af. destruct (nth_error (children l) j); [exact Af|discriminate]. }
    exists (pure_logical (p ++ [i], l)). split; [apply in_map, below_iff; eauto|]. unfold pure_logical. cbn [l_attr l_funcs text_or_empty].
    rewrite those_below; [|exact (well_at _ _ _ W Al)|rewrite (Cl i l Nl); reflexivity]. apply in_map_iff. exists (S j, pure_function ((p ++ [i]) ++ [j], f)). cbn [fst snd]. split.
    + rewrite <- app_assoc. unfold function_reference, own_name, pure_function. cbn [f_name f_attr text_or_empty f_id fst]. rewrite !text_field. reflexivity.
    + apply combine_seq. exists j. split; [reflexivity|]. rewrite nth_error_map, nth_below, Nj. reflexivity.
Qed.
(** The channels of a mode. *)
Lemma channel_spots_iff p m q k : at_place root p = Some m -> class m = CDmxMode ->
  (In (q, k) (channel_spots (p, m)) <-> at_place root q = Some k /\ class k = CDmxChannel /\ same_mode p q).
Proof.
  intros A C. assert (Lp : List.length p = 2%nat).
  { rewrite <- (trail_length p root m A). rewrite (chain_trail root W R 9 [CDMXModes; CDmxMode] p m); [reflexivity|rewrite C; vm_compute; reflexivity|exact A]. }
  unfold channel_spots. rewrite down_iff. split.
  - intros (r & -> & Ar & Tr). assert (A' : at_place root (p ++ r) = Some k) by (rewrite at_app, A; exact Ar). split; [exact A'|].
    assert (Trr : trail root (p ++ r) = [CDMXModes; CDmxMode] ++ [CDMXChannels; CDmxChannel]).
    { rewrite (trail_app _ _ _ _ A), Tr. f_equal. apply (chain_trail root W R 9 [CDMXModes; CDmxMode] p m); [rewrite C; vm_compute; reflexivity|exact A]. }
    split.
    + apply (found_iff root W R 9 CDmxChannel [CDMXModes; CDmxMode; CDMXChannels; CDmxChannel] (p ++ r)); [vm_compute; reflexivity|discriminate|]. apply down_iff. exists (p ++ r). auto.
    + unfold same_mode. rewrite firstn_app, Lp. cbn. rewrite app_nil_r. reflexivity.
  - intros (Ak & Ck & Sm). pose proof (chain_trail root W R 9 [CDMXModes; CDmxMode; CDMXChannels; CDmxChannel] q k) as Tr. rewrite Ck in Tr. specialize (Tr eq_refl Ak).
    unfold same_mode in Sm. rewrite (firstn_all2 p) in Sm by lia. exists (skipn 2 q). assert (E : q = p ++ skipn 2 q) by (rewrite Sm; symmetry; apply firstn_skipn). split; [exact E|].
    rewrite E in Ak, Tr. rewrite at_app, A in Ak. split; [exact Ak|]. rewrite (trail_app _ _ _ _ A) in Tr.
    rewrite (chain_trail root W R 9 [CDMXModes; CDmxMode] p m) in Tr; [|rewrite C; vm_compute; reflexivity|exact A]. injection Tr as Tr. exact Tr.
Qed.
Definition mode_channels (s : spot) : list (@channel place) := map pure_channel (channel_spots s).
Lemma mode_complete s : Forall complete (mode_channels s).
Proof. apply Forall_forall. intros c H. apply in_map_iff in H as (x & <- & _). apply pure_complete. Qed.
Definition channel_names (cs : list (@channel place)) : list (list N * place) := map (fun c => (channel_text c, h_id c)) cs.
Lemma channel_names_iff p m q t : at_place root p = Some m -> class m = CDmxMode ->
  (In (t, q) (channel_names (mode_channels (p, m))) <-> channel_at root q t /\ same_mode p q).
Proof.
  intros A C. unfold channel_names, mode_channels. rewrite map_map, in_map_iff. split.
  - intros ((q', k) & [= <- <-] & I). cbn [pure_channel h_id fst]. apply (channel_spots_iff p m q' k A C) in I as (Ak & Ck & Sm). split; [|exact Sm]. exists k. rewrite <- (channel_text_pure q' k Ak Ck). auto.
  - intros ((k & Ak & Ck & ->) & Sm). exists (q, k). rewrite (channel_text_pure q k Ak Ck). split; [reflexivity|]. apply (channel_spots_iff p m q k A C). auto.
Qed.
Lemma function_keys_iff p m q t : at_place root p = Some m -> class m = CDmxMode ->
  (In (t, q) (function_keys (mode_channels (p, m))) <-> function_at root q t /\ same_mode p q).
Proof.
  intros A C.
  assert (E : In (t, q) (function_keys (mode_channels (p, m))) <-> exists s, In s (channel_spots (p, m)) /\ In (t, q) (function_keys [pure_channel s])).
  { unfold mode_channels, function_keys. rewrite in_flat_map. split.
    - intros (c & I & H). apply in_map_iff in I as (s & <- & I). exists s. split; [exact I|]. cbn [flat_map]. rewrite app_nil_r. exact H.
    - intros (s & I & H). exists (pure_channel s). split; [apply in_map, I|]. cbn [flat_map] in H. rewrite app_nil_r in H. exact H. }
  rewrite E. clear E.
  assert (Len : forall q k, at_place root q = Some k -> class k = CDmxChannel -> List.length q = 4%nat).
  { intros q0 k Ak Ck. rewrite <- (trail_length q0 root k Ak). rewrite (chain_trail root W R 9 [CDMXModes; CDmxMode; CDMXChannels; CDmxChannel] q0 k); [reflexivity|rewrite Ck; vm_compute; reflexivity|exact Ak]. }
  assert (Pre : forall q0 i j : place, List.length q0 = 4%nat -> same_mode p (q0 ++ i) <-> same_mode p q0).
  { intros q0 i _ L. unfold same_mode. rewrite firstn_app, L. cbn [Nat.sub firstn]. rewrite app_nil_r. reflexivity. }
  split.
  - intros ((q0, k) & I & H). apply (channel_spots_iff p m q0 k A C) in I as (Ak & Ck & Sm). apply (channel_keys_iff q0 k q t Ak Ck) in H as (Fa & i & j & ->). split; [exact Fa|].
    apply (Pre q0 [i; j] []); [exact (Len q0 k Ak Ck)|exact Sm].
  - intros (Fa & Sm). pose proof Fa as (p0 & i & j & c & l & f & -> & Ac & Al & Af & Cf & Et).
    assert (Ck : class c = CDmxChannel).
    { assert (Tr := chain_trail root W R 9 [CDMXModes; CDmxMode; CDMXChannels; CDmxChannel; CDmxLogicalChannel; CDmxChannelFunction] (p0 ++ [i; j]) f). rewrite Cf in Tr. specialize (Tr eq_refl Af).
      change [i; j] with ([i] ++ [j]) in Tr, Af. rewrite app_assoc in Tr, Af. rewrite (trail_app _ _ _ _ Al), (trail_app _ _ _ _ Ac) in Tr. rewrite at_app, Al in Af. rewrite at_app, Ac in Al.
      cbn in Tr, Af, Al. destruct (nth_error (children c) i) as [l'|] eqn:Nl; [|discriminate]. injection Al as ->. destruct (nth_error (children l) j) as [f'|]; [|discriminate]. injection Af as ->.
      change [CDMXModes; CDmxMode; CDMXChannels; CDmxChannel; CDmxLogicalChannel; CDmxChannelFunction] with (([CDMXModes; CDmxMode; CDMXChannels; CDmxChannel] ++ [CDmxLogicalChannel]) ++ [CDmxChannelFunction]) in Tr.
      apply app_inj_tail in Tr as (Tr & _). apply app_inj_tail in Tr as (Tr & El). pose proof (proj2 (well_child c i l (well_at _ _ _ W Ac) Nl)) as I. rewrite El in I. assert (P : parents CDmxLogicalChannel = [CDmxChannel]) by (vm_compute; reflexivity). rewrite P in I. destruct I as [I|[]]. symmetry. exact I. }
    pose proof (Len p0 c Ac Ck) as L. exists (p0, c). split; [apply (channel_spots_iff p m p0 c A C); split; [exact Ac|]; split; [exact Ck|]; apply (Pre p0 [i; j] [] L), Sm|].
    apply (channel_keys_iff p0 c _ t Ac Ck). split; [exact Fa|eauto].
Qed.
End Fixture.
