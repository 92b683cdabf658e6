(** C101: the pointers of a fixture after reading, and after writing and reading it again. *)
From Coq Require Import String List NArith ZArith Bool Lia.
From Verif Require Import Bytes Txt StringModel StringProofs NumModel EnumModel XmlModel XmlProps ObjModel ObjSpec ObjTree ObjCheck ObjProps ObjMore LookupModel LookupProps
  LinkModel LinkSpec LinkWhere LinkProofs LinkEvents LinkProps.
Import ListNotations.
Open Scope N_scope.

(** ** C101: pointers *)
Theorem C101_pointers hash n root : well_placed root -> class root = CFixture -> linked root ->
  exists evs, resolve_all hash n root = Ok evs /\
    (forall p m q, In (Link p m (To q)) evs <-> refers root p m q) /\
    (forall p m, In (Link p m Null) evs -> unset root p m) /\
    (forall p m, ~ In (Link p m Made) evs) /\
    (forall p e, In (Report p e) evs ->
      exists o m, at_place root p = Some o /\ In (class o) [CDmxMode; CDmxChannel; CMacroDMXValue] /\ unset root p m).
Proof.
  intros W R L. exists (all_ev root hash n). split; [exact (resolve_pure root W R L hash n)|]. pose proof (all_sound root W R L hash n) as S.
  split; [intros p m q; split; [intros I; exact (S _ I)|apply (all_complete root W R L hash n)]|].
  split; [intros p m I; exact (S _ I)|]. split; [intros p m I; exact (S _ I)|]. intros p e I. exact (S _ I).
Qed.
(** No pointer is set twice. *)
Theorem C101_one root p m q q' : linked root -> refers root p m q -> refers root p m q' -> q = q'.
Proof.
  intros L (o & k & A & I & H) (o' & k' & A' & I' & H'). rewrite A in A'. injection A' as <-. assert (k' = k) by (eapply refs_one; eassumption). subst k'.
  destruct H as [(N & M)|(_ & E & -> & _)], H' as [(N' & M')|(_ & E' & -> & _)]; try contradiction; [|reflexivity].
  destruct (proj2 (proj1 L p o m k A I) N) as (q0 & _ & U). rewrite (U q _ M eq_refl), (U q' _ M' eq_refl). reflexivity.
Qed.
(** Nothing is reported if modes and channels have a geometry, channels a function and values of macros a channel. *)
Theorem C101_quiet hash n root : well_placed root -> class root = CFixture -> linked root ->
  (forall p o, at_place root p = Some o -> class o = CDmxMode \/ class o = CDmxChannel -> field "fGeomRef" o <> []) ->
  (forall p o, at_place root p = Some o -> class o = CDmxChannel -> exists l ls f fs, children o = l :: ls /\ children l = f :: fs) ->
  (forall p o, at_place root p = Some o -> class o = CMacroDMXValue -> field "fDMXChannel" o <> []) ->
  exists evs, resolve_all hash n root = Ok evs /\ forall p e, ~ In (Report p e) evs.
Proof.
  intros W R L H1 H2 H3. destruct (C101_pointers hash n root W R L) as (evs & E & _ & _ & _ & Hr). exists evs. split; [exact E|]. intros p e I.
  destruct (Hr p e I) as (o & m & A & D & (o' & k & A' & Ir & Em & No)). rewrite A in A'. injection A' as <-. cbn [In] in D. destruct D as [D|[D|[D|[]]]]; symmetry in D; rewrite D in Ir; cbn [refs In] in Ir.
  - destruct Ir as [Ir|[]]. injection Ir as <- <-. exact (H1 p o A (or_introl D) Em).
  - destruct Ir as [Ir|[Ir|[]]]; injection Ir as <- <-; [exact (H1 p o A (or_intror D) Em)|]. destruct (H2 p o A D) as (l & ls & f & fs & El & Ef). apply (No (p ++ [0; 0]%nat)).
    exists o, RInitial. split; [exact A|]. split; [rewrite D; right; left; reflexivity|]. right. split; [reflexivity|]. split; [exact Em|]. split; [reflexivity|]. rewrite at_app, A. cbn. rewrite El. cbn. rewrite Ef. discriminate.
  - destruct Ir as [Ir|[]]. injection Ir as <- <-. exact (H3 p o A D Em).
Qed.

(** ** C101: written and read again *)
Lemma fits_placed ctx : forall ss ks, fits ctx ss ks -> Forall (fun k => In (class k) (flat_map (fun s => map snd (s_kinds s)) ss)) ks.
Proof.
  induction 1 as [|s ss l ks (F & _) _ IH]; [constructor|]. apply Forall_app. cbn [flat_map]. split.
  - eapply Forall_impl; [|exact F]. intros k I. apply in_app_iff. auto.
  - eapply Forall_impl; [|exact IH]. intros k I. apply in_app_iff. auto.
Qed.
Lemma ok_placed : forall o ctx, obj_ok ctx o -> well_placed o.
Proof.
  induction o as [c vs ks IH] using obj_induction. intros ctx O. inversion O as [? ? ? ? _ F Fk]; subst. constructor; [exact (fits_placed _ _ _ F)|].
  apply Forall_forall. intros k I. rewrite Forall_forall in IH, Fk. exact (IH k I _ (Fk k I)).
Qed.
Lemma same_at : forall p o o', same_obj o o' -> match at_place o p, at_place o' p with Some k, Some k' => same_obj k k' | None, None => True | _, _ => False end.
Proof.
  induction p as [|i p IH]; intros o o' H; [exact H|]. cbn. destruct H as [c vs vs' ks ks' _ F]. cbn [children].
  assert (E : match nth_error ks i, nth_error ks' i with Some k, Some k' => same_obj k k' | None, None => True | _, _ => False end).
  { clear -F. revert i. induction F as [|k k' ks ks' S F IH]; intros [|i]; cbn; auto. apply IH. }
  destruct (nth_error ks i), (nth_error ks' i); try contradiction; [|exact I]. apply IH, E.
Qed.
Lemma same_class o o' : same_obj o o' -> class o' = class o.
Proof. intros []. reflexivity. Qed.
Lemma same_get o o' f : same_obj o o' -> same_val (get f (members o)) (get f (members o')).
Proof. intros [c vs vs' ks ks' E _]. apply E. Qed.
Lemma same_field o o' f : same_obj o o' -> field f o' = field f o.
Proof. intros H. unfold field. pose proof (same_get o o' f H) as S. destruct S as [<-|S]; [reflexivity|]. destruct (get f (members o)), (get f (members o')); try reflexivity; contradiction S. Qed.
Lemma same_unit o o' : same_obj o o' -> unit_reference o' = unit_reference o.
Proof. intros H. unfold unit_reference. pose proof (same_get o o' "fType" H) as S. destruct S as [<-|S]; [reflexivity|]. destruct (get "fType" (members o)), (get "fType" (members o')); try reflexivity; contradiction S. Qed.
Lemma same_channel o o' : same_obj o o' -> channel_reference o' = channel_reference o.
Proof.
  intros H. unfold channel_reference. rewrite (same_field o o' _ H). destruct H as [c vs vs' ks ks' _ F]. cbn [children]. destruct F as [|k k' ks ks' S F]; [reflexivity|]. rewrite (same_field k k' _ S). reflexivity.
Qed.
Lemma same_sym_at o o' p k : same_obj o o' -> at_place o' p = Some k -> exists k0, at_place o p = Some k0 /\ same_obj k0 k.
Proof. intros H A. pose proof (same_at p o o' H) as S. rewrite A in S. destruct (at_place o p) as [k0|]; [|contradiction]. exists k0. auto. Qed.
Lemma same_there o o' p k : same_obj o o' -> at_place o p = Some k -> exists k', at_place o' p = Some k' /\ same_obj k k'.
Proof. intros H A. pose proof (same_at p o o' H) as S. rewrite A in S. destruct (at_place o' p) as [k'|]; [|contradiction]. exists k'. auto. Qed.
Section Same.
Variables o o' : obj.
Hypothesis Sm : same_obj o o'.
Lemma same_has q c f t : has o' q c f t <-> has o q c f t.
Proof.
  split.
  - intros (k & A & C & E). destruct (same_sym_at o o' q k Sm A) as (k0 & A0 & S). exists k0. split; [exact A0|]. rewrite <- (same_class _ _ S), <- (same_field _ _ f S). auto.
  - intros (k & A & C & E). destruct (same_there o o' q k Sm A) as (k0 & A0 & S). exists k0. split; [exact A0|]. rewrite (same_class _ _ S), (same_field _ _ f S). auto.
Qed.
Lemma same_geometry q t : geometry_at o' q t <-> geometry_at o q t.
Proof.
  split.
  - intros (k & A & C & E). destruct (same_sym_at o o' q k Sm A) as (k0 & A0 & S). exists k0. split; [exact A0|]. rewrite <- (same_class _ _ S), <- (same_field _ _ "fUniqueName" S). auto.
  - intros (k & A & C & E). destruct (same_there o o' q k Sm A) as (k0 & A0 & S). exists k0. split; [exact A0|]. rewrite (same_class _ _ S), (same_field _ _ "fUniqueName" S). auto.
Qed.
Lemma same_channel_at q t : channel_at o' q t <-> channel_at o q t.
Proof.
  split.
  - intros (k & A & C & E). destruct (same_sym_at o o' q k Sm A) as (k0 & A0 & S). exists k0. split; [exact A0|]. rewrite <- (same_class _ _ S), <- (same_channel _ _ S). auto.
  - intros (k & A & C & E). destruct (same_there o o' q k Sm A) as (k0 & A0 & S). exists k0. split; [exact A0|]. rewrite (same_class _ _ S), (same_channel _ _ S). auto.
Qed.
Lemma same_function c c' l l' j f f' : same_obj c c' -> same_obj l l' -> same_obj f f' -> function_reference c' l' j f' = function_reference c l j f.
Proof. intros Sc Sl Sf. unfold function_reference. rewrite (same_channel _ _ Sc), (same_field _ _ _ Sl), !(same_field _ _ _ Sf). reflexivity. Qed.
Lemma same_function_at q t : function_at o' q t <-> function_at o q t.
Proof.
  split.
  - intros (p & i & j & c & l & f & -> & Ac & Al & Af & Cf & ->). destruct (same_sym_at o o' _ _ Sm Ac) as (c0 & Ac0 & Sc). destruct (same_sym_at o o' _ _ Sm Al) as (l0 & Al0 & Sl). destruct (same_sym_at o o' _ _ Sm Af) as (f0 & Af0 & Sf).
    exists p, i, j, c0, l0, f0. repeat (split; [assumption || reflexivity|]). split; [rewrite <- (same_class _ _ Sf); exact Cf|]. apply same_function; assumption.
  - intros (p & i & j & c & l & f & -> & Ac & Al & Af & Cf & ->). destruct (same_there o o' _ _ Sm Ac) as (c0 & Ac0 & Sc). destruct (same_there o o' _ _ Sm Al) as (l0 & Al0 & Sl). destruct (same_there o o' _ _ Sm Af) as (f0 & Af0 & Sf).
    exists p, i, j, c0, l0, f0. repeat (split; [assumption || reflexivity|]). split; [rewrite (same_class _ _ Sf); exact Cf|]. symmetry. apply same_function; assumption.
Qed.
Lemma same_means p k q t : means o' p k q t <-> means o p k q t.
Proof.
  destruct k; cbn [means]; rewrite ?same_has, ?same_geometry, ?same_channel_at, ?same_function_at; try reflexivity.
  - split; intros (q' & i & a & E & A & C & H); apply same_has in H || (apply <- same_has in H).
    + destruct (same_sym_at o o' _ _ Sm A) as (a0 & A0 & S). exists q', i, a0. rewrite <- (same_class _ _ S). auto.
    + destruct (same_there o o' _ _ Sm A) as (a0 & A0 & S). exists q', i, a0. rewrite (same_class _ _ S). auto.
  - split; intros (k & A & C & ->).
    + destruct (same_sym_at o o' _ _ Sm A) as (k0 & A0 & S). exists k0. rewrite <- (same_class _ _ S), <- (same_unit _ _ S). auto.
    + destruct (same_there o o' _ _ Sm A) as (k0 & A0 & S). exists k0. rewrite (same_class _ _ S), (same_unit _ _ S). auto.
  - split; intros (q' & i & g & f & -> & Ag & Af & C & ->).
    + destruct (same_sym_at o o' _ _ Sm Ag) as (g0 & Ag0 & Sg). destruct (same_sym_at o o' _ _ Sm Af) as (f0 & Af0 & Sf). exists q', i, g0, f0. rewrite <- (same_class _ _ Sf), (same_field _ _ _ Sg), (same_field _ _ _ Sf). auto.
    + destruct (same_there o o' _ _ Sm Ag) as (g0 & Ag0 & Sg). destruct (same_there o o' _ _ Sm Af) as (f0 & Af0 & Sf). exists q', i, g0, f0. rewrite (same_class _ _ Sf), (same_field _ _ _ Sg), (same_field _ _ _ Sf). auto.
Qed.
Lemma same_linked : linked o -> linked o'.
Proof.
  intros (L1 & L2). split.
  - intros p k m kd A I. destruct (same_sym_at o o' _ _ Sm A) as (k0 & A0 & S). rewrite (same_class _ _ S) in *. rewrite (same_field _ _ m S). destruct (L1 p k0 m kd A0 I) as (H1 & H2). split; [exact H1|].
    intros N. destruct (H2 N) as (q & M & U). exists q. split; [apply same_means; exact M|]. intros q' t M'. apply same_means in M'. exact (U q' t M').
  - intros p k A C. destruct (same_sym_at o o' _ _ Sm A) as (k0 & A0 & S). rewrite !(same_field _ _ _ S). apply (L2 p k0 A0). rewrite <- (same_class _ _ S). exact C.
Qed.
Lemma same_refers p m q : refers o' p m q <-> refers o p m q.
Proof.
  unfold refers. split; intros (k & kd & A & I & H).
  - destruct (same_sym_at o o' _ _ Sm A) as (k0 & A0 & S). exists k0, kd. rewrite (same_class _ _ S) in I. rewrite (same_field _ _ m S) in H. split; [exact A0|]. split; [exact I|]. destruct H as [(N & M)|(E1 & E2 & E3 & E4)].
    + left. split; [exact N|]. apply same_means, M.
    + right. repeat (split; [assumption|]). intros An. apply E4. pose proof (same_at q o o' Sm) as X. rewrite An in X. destruct (at_place o' q); [contradiction|reflexivity].
  - destruct (same_there o o' _ _ Sm A) as (k0 & A0 & S). exists k0, kd. rewrite (same_class _ _ S). rewrite (same_field _ _ m S). split; [exact A0|]. split; [exact I|]. destruct H as [(N & M)|(E1 & E2 & E3 & E4)].
    + left. split; [exact N|]. apply same_means, M.
    + right. repeat (split; [assumption|]). intros An. apply E4. pose proof (same_at q o o' Sm) as X. rewrite An in X. destruct (at_place o q); [contradiction|reflexivity].
Qed.
Lemma same_placed : well_placed o -> well_placed o'.
Proof.
  clear -Sm. revert o' Sm. induction o as [c vs ks IH] using obj_induction. intros o' Sm W. inversion Sm as [? ? vs' ? ks' E F]; subst. inversion W as [? ? ? Fc Fw]; subst.
  constructor.
  - clear -F Fc. induction F as [|k k' ks ks' S F IHF]; [constructor|]. inversion Fc as [|? ? Hk Hks]; subst. constructor; [rewrite (same_class _ _ S); exact Hk|exact (IHF Hks)].
  - clear -F Fw IH. induction F as [|k k' ks ks' S F IHF]; [constructor|]. inversion Fw as [|? ? Hk Hks]; subst. inversion IH as [|? ? I1 I2]; subst. constructor; [exact (I1 k' S Hk)|exact (IHF I2 Hks)].
Qed.
End Same.
(** The file of a fixture, read again, has a pointer where the fixture had one, to the same object. *)
Theorem C101_file hash buckets ctx o : obj_ok ctx o -> no_cr_obj o -> (levels o <= 98)%nat -> class o = CFixture -> linked o ->
  exists n n' o' evs, write_obj ctx o = Ok n /\ parse (write_buffer [n]) = DOk [Decl declaration; n'] /\
    read_node hash buckets ctx CFixture n' = Ok (o', reports o) /\ same_obj o o' /\
    resolve_all hash buckets o' = Ok evs /\ forall p m q, In (Link p m (To q)) evs <-> refers o p m q.
Proof.
  intros O Cr Lv R L. destruct (C89_file hash buckets ctx o O Cr Lv) as (n & n' & o' & Wn & P & Rd & S & _). rewrite R in Rd.
  destruct (C101_pointers hash buckets o') as (evs & E & H & _); [exact (same_placed o o' S (ok_placed o ctx O))|rewrite (same_class _ _ S); exact R|exact (same_linked o o' S L)|].
  exists n, n', o', evs. repeat (split; [assumption|]). intros p m q. rewrite H. apply same_refers, S.
Qed.
