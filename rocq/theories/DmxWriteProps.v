(** C48: the channel sets written for a channel function. *)
From Coq Require Import String List NArith ZArith Lia Bool Sorted Permutation.
From Coq Require Import ZifyN ZifyNat ZifyBool.
From Verif Require Import Bytes Txt StringModel NumModel ConvModel DmxValProps DmxModel DmxProps.
Import ListNotations.
Open Scope N_scope.

(** What std::sort promises: the elements, ordered by start value (sets with the same start in any order). *)
Definition sorts (sort : list cset -> list cset) : Prop :=
  forall l, Permutation (sort l) l /\ StronglySorted (fun a b => cs_start a <= cs_start b) (sort l).
(** The values of a set: first and last one, in a function ending at [fend]. *)
Definition range (fend : N) (s : cset) : N * N := (cs_start s, dmx_end fend s).
Definition inside (fstart fend : N) (s : cset) : Prop := fstart <= cs_start s /\ cs_start s <= dmx_end fend s /\ dmx_end fend s <= fend.
Definition apart (fend : N) (a b : cset) : Prop := dmx_end fend a < cs_start b \/ dmx_end fend b < cs_start a.
(** Sets that lie inside the function and have no value in common. *)
Definition disjoint_sets (fstart fend : N) (sets : list cset) : Prop :=
  Forall (inside fstart fend) sets /\ ForallOrdPairs (apart fend) sets.

Lemma pairs_perm {A} (R : A -> A -> Prop) : (forall a b, R a b -> R b a) -> forall l l', Permutation l l' -> ForallOrdPairs R l -> ForallOrdPairs R l'.
Proof.
  intros Sym l l' P. induction P as [|x l l' P IH|x y l|l1 l2 l3 P1 IH1 P2 IH2]; intros F.
  - constructor.
  - inversion_clear F as [|? ? F1 F2]. constructor; [|now apply IH]. eapply Permutation_Forall; eassumption.
  - inversion_clear F as [|? ? F1 F2]. inversion_clear F2 as [|? ? F3 F4]. inversion_clear F1 as [|? ? F5 F6].
    constructor; [constructor; [now apply Sym|assumption]|]. constructor; assumption.
  - auto.
Qed.
Lemma apart_sym fend a b : apart fend a b -> apart fend b a. Proof. unfold apart. tauto. Qed.
Definition before (fend : N) (a b : cset) : Prop := dmx_end fend a < cs_start b.
Lemma sorted_before fstart fend l : StronglySorted (fun a b => cs_start a <= cs_start b) l -> disjoint_sets fstart fend l -> StronglySorted (before fend) l.
Proof.
  intros S (F & P). induction l as [|a l IH]; [constructor|]. inversion_clear S as [|? ? S' L]. inversion_clear F as [|? ? Fa F']. inversion_clear P as [|? ? P1 P2].
  constructor; [now apply IH|]. apply Forall_forall. intros b Hb. rewrite Forall_forall in L, P1, F'. specialize (L b Hb). specialize (P1 b Hb). specialize (F' b Hb).
  unfold before, apart, inside in *. lia.
Qed.

(** [l] follows without gaps from [a] up to [b]. *)
Fixpoint tiled (fend a : N) (l : list cset) (b : N) : Prop :=
  match l with [] => a = b + 1 | s :: r => cs_start s = a /\ a <= dmx_end fend s /\ tiled fend (dmx_end fend s + 1) r b end.
Lemma tiled_app fend l1 : forall a m l2 b, tiled fend a l1 m -> tiled fend (m + 1) l2 b -> tiled fend a (l1 ++ l2) b.
Proof.
  induction l1 as [|s l1 IH]; intros a m l2 b H1 H2; cbn [tiled app] in *; [subst; exact H2|].
  destruct H1 as (H & H' & H1). split; [exact H|]. split; [exact H'|]. now apply (IH _ m).
Qed.
Lemma tiled_le fend : forall l a b, tiled fend a l b -> a <= b + 1.
Proof. induction l as [|s l IH]; intros a b H; cbn [tiled] in H; [lia|]. destruct H as (_ & H1 & H2). apply IH in H2. lia. Qed.
Lemma tiled_hits fend : forall l a b v, tiled fend a l b -> hits v (map (range fend) l) = if (a <=? v) && (v <=? b) then 1%nat else 0%nat.
Proof.
  induction l as [|s l IH]; intros a b v H; cbn [tiled] in H; cbn [map].
  - unfold hits. cbn. destruct (_ && _) eqn:E; [lia|reflexivity].
  - destruct H as (H1 & H2 & H3). rewrite hits_cons, (IH _ _ v H3). pose proof (tiled_le _ _ _ _ H3). unfold range. cbn [fst snd].
    destruct (_ && _) eqn:E1; destruct ((_ + 1 <=? v) && _) eqn:E2; destruct ((a <=? v) && _) eqn:E3; lia.
Qed.
Lemma filler_end fend a b : b < no_end -> dmx_end fend (filler a b) = b.
Proof. intros H. unfold dmx_end. cbn [filler cs_next cs_end negb andb]. replace (b =? no_end) with false by lia. reflexivity. Qed.
Lemma inc64_ok v : v < no_end -> inc64 v = v + 1.
Proof. unfold inc64, no_end, two64. intros. apply N.mod_small. lia. Qed.
Lemma dec64_ok v : 0 < v -> v <= no_end -> dec64 v = v - 1.
Proof.
  unfold dec64, no_end, two64. intros. replace (v + 18446744073709551616 - 1) with (v - 1 + 1 * 18446744073709551616) by lia.
  rewrite N.mod_add by lia. apply N.mod_small. lia.
Qed.
Lemma diff_ok a b : b < a -> a <= no_end -> (a + two64 - b) mod two64 = a - b.
Proof.
  unfold no_end, two64. intros. replace (a + 18446744073709551616 - b) with (a - b + 1 * 18446744073709551616) by lia.
  rewrite N.mod_add by lia. apply N.mod_small. lia.
Qed.
Lemma between_tiled fstart fend : fend < no_end -> forall l a, StronglySorted (before fend) (a :: l) -> Forall (inside fstart fend) (a :: l) ->
  tiled fend (cs_start a) (a :: fill_between fend a l) (dmx_end fend (last l a)).
Proof.
  intros Hf. induction l as [|b l IH]; intros a S F.
  - cbn. apply Forall_inv in F. unfold inside in F. repeat split; lia.
  - inversion_clear S as [|? ? S' B]. inversion_clear F as [|? ? Fa F']. specialize (IH b S' F'). apply Forall_inv in B. pose proof (Forall_inv F') as Fb.
    unfold before, inside in *. cbn [fill_between]. rewrite diff_ok by lia. replace (last (b :: l) a) with (last l b) by (destruct l; [reflexivity|]; cbn [last]; clear; revert c; induction l as [|x l IH]; intros c; [reflexivity|apply IH]).
    cbn [tiled]. split; [reflexivity|]. split; [lia|]. destruct (1 <? _) eqn:E.
    + rewrite inc64_ok, dec64_ok by lia. cbn [app tiled]. rewrite filler_end by lia. cbn [filler cs_start]. split; [reflexivity|]. split; [lia|].
      replace (cs_start b - 1 + 1) with (cs_start b) by lia. exact IH.
    + cbn [app]. replace (dmx_end fend a + 1) with (cs_start b) by lia. exact IH.
Qed.
Section Sort.
Variable sort : list cset -> list cset.
Hypothesis Hsort : sorts sort.
Lemma sort_ok fstart fend sets : disjoint_sets fstart fend sets -> StronglySorted (before fend) (sort sets) /\ Forall (inside fstart fend) (sort sets).
Proof.
  intros (F & P). destruct (Hsort sets) as (Pm & S).
  assert (F' : Forall (inside fstart fend) (sort sets)) by (eapply Permutation_Forall; [apply Permutation_sym; exact Pm|exact F]).
  split; [|exact F']. apply (sorted_before fstart fend _ S). split; [exact F'|]. eapply pairs_perm; [apply apart_sym|apply Permutation_sym; exact Pm|exact P].
Qed.
Lemma fill_tiled fstart fend sets : fend < no_end -> sets <> [] -> disjoint_sets fstart fend sets -> tiled fend fstart (fill_sets sort fstart fend sets) fend.
Proof.
  intros Hf Hn D. destruct (sort_ok _ _ _ D) as (S & F). unfold fill_sets. destruct (Hsort sets) as (Pm & _).
  destruct (sort sets) as [|a r]. { apply Permutation_nil in Pm. congruence. }
  pose proof (between_tiled fstart fend Hf r a S F) as B.
  assert (La : inside fstart fend (last r a)).
  { rewrite Forall_forall in F. apply F. destruct r as [|b r]; [now left|]. right. destruct (@exists_last _ (b :: r)) as (q & x & E); [discriminate|]. rewrite E, last_last. apply in_app_iff. right. now left. }
  pose proof (Forall_inv F) as Fa. unfold inside in Fa, La.
  assert (B2 : tiled fend (cs_start a) ((a :: fill_between fend a r) ++ (let l := last r a in if dmx_end fend l <? fend then [filler (inc64 (dmx_end fend l)) fend] else [])) fend).
  { eapply tiled_app; [exact B|]. cbv zeta. destruct (_ <? fend) eqn:E.
    - rewrite inc64_ok by lia. cbn [tiled]. rewrite filler_end by lia. cbn [filler cs_start]. lia.
    - cbn [tiled]. lia. }
  destruct (fstart <? cs_start a) eqn:E.
  - rewrite dec64_ok by lia. cbn [app tiled]. rewrite filler_end by lia. cbn [filler cs_start]. split; [reflexivity|]. split; [lia|].
    replace (cs_start a - 1 + 1) with (cs_start a) by lia. exact B2.
  - replace fstart with (cs_start a) by lia. exact B2.
Qed.

(** The sets among which nothing is left over: a filler lies between two of the sets, or at an end. *)
Definition fills (fstart fend : N) (sets : list cset) (f : cset) : Prop :=
  cs_name f = [] /\ (cs_start f = fstart \/ exists s, In s sets /\ dmx_end fend s + 1 = cs_start f)
  /\ (cs_end f = fend \/ exists s, In s sets /\ cs_start s = cs_end f + 1).
Lemma between_fills fstart fend : fend < no_end -> forall l a, StronglySorted (before fend) (a :: l) -> Forall (inside fstart fend) (a :: l) ->
  exists fl, Permutation (fill_between fend a l) (l ++ fl) /\ Forall (fills fstart fend (a :: l)) fl.
Proof.
  intros Hf. induction l as [|b l IH]; intros a S F.
  - exists []. split; constructor.
  - inversion_clear S as [|? ? S' B]. inversion_clear F as [|? ? Fa F']. destruct (IH b S' F') as (fl & P & G). apply Forall_inv in B. pose proof (Forall_inv F') as Fb.
    unfold before, inside in *. cbn [fill_between]. rewrite diff_ok by lia.
    assert (G' : Forall (fills fstart fend (a :: b :: l)) fl).
    { eapply Forall_impl; [|exact G]. intros f (G1 & G2 & G3). split; [exact G1|]. split; [destruct G2 as [G2|(s & G2 & G4)]|destruct G3 as [G3|(s & G3 & G4)]]; try (now left); right; exists s; (split; [now right|exact G4]). }
    destruct (1 <? _) eqn:E.
    + rewrite inc64_ok, dec64_ok by lia. exists (filler (dmx_end fend a + 1) (cs_start b - 1) :: fl). split.
      * cbn [app]. apply Permutation_trans with (filler (dmx_end fend a + 1) (cs_start b - 1) :: b :: l ++ fl); [do 2 constructor; exact P|].
        apply (Permutation_middle (b :: l) fl).
      * constructor; [|exact G']. split; [reflexivity|]. split; right; cbn [filler cs_start cs_end].
        -- exists a. split; [now left|reflexivity].
        -- exists b. split; [right; now left|lia].
    + exists fl. split; [cbn [app]; now constructor|exact G'].
Qed.

(** The written sets: every value of the function is in exactly one of them, and no other value is. *)
Theorem C48_cover_partial : forall fstart fend sets, fend < no_end -> sets <> [] -> disjoint_sets fstart fend sets ->
  forall v, hits v (map (range fend) (fill_sets sort fstart fend sets)) = if (fstart <=? v) && (v <=? fend) then 1%nat else 0%nat.
Proof. intros fstart fend sets Hf Hn D v. apply (tiled_hits fend _ fstart fend v). now apply fill_tiled. Qed.
(** They are the original sets, unchanged, and unnamed sets that fill whole gaps. *)
Theorem C48_keep : forall fstart fend sets, fend < no_end -> disjoint_sets fstart fend sets ->
  exists fl, Permutation (fill_sets sort fstart fend sets) (sets ++ fl) /\ Forall (fills fstart fend sets) fl.
Proof.
  intros fstart fend sets Hf D. destruct (sort_ok _ _ _ D) as (S & F). unfold fill_sets. destruct (Hsort sets) as (Pm & _).
  assert (Im : forall fl, Forall (fills fstart fend (sort sets)) fl -> Forall (fills fstart fend sets) fl).
  { intros fl. apply Forall_impl. intros f (G1 & G2 & G3). split; [exact G1|].
    split; [destruct G2 as [G2|(s & G2 & G4)]|destruct G3 as [G3|(s & G3 & G4)]]; try (now left); right; exists s; (split; [|exact G4]); eapply Permutation_in; eassumption. }
  destruct (sort sets) as [|a r] eqn:Es.
  { apply Permutation_nil in Pm. subst. exists []. split; constructor. }
  destruct (between_fills fstart fend Hf r a S F) as (fl & P & G). pose proof (Forall_inv F) as Fa. unfold inside in Fa.
  assert (Li : In (last r a) (a :: r)).
  { destruct r as [|b r']; [now left|]. right. destruct (@exists_last _ (b :: r')) as (q & x & E); [discriminate|]. rewrite E, last_last. apply in_app_iff. right. now left. }
  assert (La : inside fstart fend (last r a)) by (rewrite Forall_forall in F; now apply F). unfold inside in La.
  set (f1 := if fstart <? cs_start a then [filler fstart (dec64 (cs_start a))] else []).
  set (f2 := let l := last r a in if dmx_end fend l <? fend then [filler (inc64 (dmx_end fend l)) fend] else []).
  exists (f1 ++ fl ++ f2). split.
  - apply Permutation_trans with (f1 ++ (a :: r ++ fl) ++ f2).
    + apply Permutation_app_head. cbn [app]. constructor. now apply Permutation_app_tail.
    + apply Permutation_trans with ((a :: r) ++ f1 ++ fl ++ f2); [|now apply Permutation_app_tail].
      rewrite !app_assoc. apply Permutation_app_tail. change (a :: r ++ fl) with ((a :: r) ++ fl). rewrite app_assoc. apply Permutation_app_tail. apply Permutation_app_comm.
  - apply Im. apply Forall_app. split; [|apply Forall_app; split; [exact G|]].
    + unfold f1. destruct (fstart <? cs_start a) eqn:E; [|constructor]. constructor; [|constructor]. rewrite dec64_ok by lia. split; [reflexivity|]. split; [now left|].
      right. exists a. split; [now left|cbn; lia].
    + unfold f2. cbv zeta. destruct (_ <? fend) eqn:E; [|constructor]. constructor; [|constructor]. rewrite inc64_ok by lia. split; [reflexivity|]. split; [|now left].
      right. exists (last r a). split; [exact Li|reflexivity].
Qed.

Lemma tiled_starts fend : forall l a b, tiled fend a l b -> StronglySorted (fun x y => cs_start x < cs_start y) l /\ Forall (fun s => a <= cs_start s /\ cs_start s <= dmx_end fend s /\ dmx_end fend s <= b) l.
Proof.
  induction l as [|s l IH]; intros a b H; cbn [tiled] in H; [split; constructor|]. destruct H as (H1 & H2 & H3). destruct (IH _ _ H3) as (I1 & I2). pose proof (tiled_le _ _ _ _ H3). split.
  - constructor; [exact I1|]. eapply Forall_impl; [|exact I2]. cbn. intros x. lia.
  - constructor; [lia|]. eapply Forall_impl; [|exact I2]. cbn. intros x. lia.
Qed.
Lemma sorted_unique : forall l l', Permutation l l' -> StronglySorted (fun x y => cs_start x < cs_start y) l -> StronglySorted (fun x y => cs_start x <= cs_start y) l' -> l = l'.
Proof.
  induction l as [|a l IH]; intros l' P S S'; [apply Permutation_nil in P; now subst|].
  destruct l' as [|b l']; [apply Permutation_sym, Permutation_nil in P; discriminate|].
  inversion_clear S as [|? ? S1 F1]. inversion_clear S' as [|? ? S2 F2]. rewrite Forall_forall in F1, F2.
  assert (E : a = b).
  { destruct (Permutation_in a P (or_introl eq_refl)) as [->|Ha]; [reflexivity|]. destruct (Permutation_in b (Permutation_sym P) (or_introl eq_refl)) as [->|Hb]; [reflexivity|].
    specialize (F1 b Hb). specialize (F2 a Ha). cbn in F1, F2. lia. }
  subst b. f_equal. apply IH; [|assumption|assumption]. now apply Permutation_cons_inv in P.
Qed.
Lemma tiled_fill fstart fend l : fend < no_end -> l <> [] -> tiled fend fstart l fend -> fill_sets sort fstart fend l = l.
Proof.
  intros Hf Hn H. unfold fill_sets. destruct (tiled_starts _ _ _ _ H) as (S & F). destruct (Hsort l) as (Pm & S').
  rewrite <- (sorted_unique l (sort l) (Permutation_sym Pm) S S'). destruct l as [|a r]; [congruence|]. clear Pm S' Hn.
  cbn [tiled] in H. destruct H as (H1 & H2 & H3). rewrite H1. replace (fstart <? fstart) with false by lia. cbn [app]. f_equal.
  clear H1 H2 S. inversion_clear F as [|? ? Fa F']. clear Fa. revert a H3. induction r as [|b r IH]; intros a H3; cbn [fill_between].
  - cbn in *. replace (dmx_end fend a <? fend) with false by lia. reflexivity.
  - inversion_clear F' as [|? ? Fb F'']. cbn [tiled] in H3. destruct H3 as (H4 & H5 & H6). rewrite diff_ok by lia. replace (1 <? _) with false by lia. cbn [app]. f_equal.
    replace (last (b :: r) a) with (last r b) by (destruct r; [reflexivity|]; cbn [last]; clear; revert c; induction r as [|x r IH]; intros c; [reflexivity|apply IH]).
    exact (IH F'' b H6).
Qed.
Lemma tiled_nonempty fend l a b : tiled fend a l b -> a <= b -> l <> [].
Proof. destruct l; cbn [tiled]; [lia|discriminate]. Qed.
(** Writing again adds nothing. *)
Theorem C48_stable : forall fstart fend sets, fend < no_end -> disjoint_sets fstart fend sets ->
  fill_sets sort fstart fend (fill_sets sort fstart fend sets) = fill_sets sort fstart fend sets.
Proof.
  intros fstart fend sets Hf D. destruct sets as [|a r] eqn:Es.
  - assert (E : fill_sets sort fstart fend [] = []) by (unfold fill_sets; destruct (Hsort []) as (P & _); apply Permutation_sym, Permutation_nil in P; now rewrite P).
    now rewrite !E.
  - rewrite <- Es in *. assert (Hn : sets <> []) by (rewrite Es; discriminate). pose proof (fill_tiled fstart fend sets Hf Hn D) as H. apply (tiled_fill fstart fend _ Hf); [|exact H].
    destruct D as (F & _). rewrite Es in F. apply Forall_inv in F. unfold inside in F. eapply tiled_nonempty; [exact H|lia].
Qed.

(** ** Reading back *)
Definition view (fend : N) (s : cset) : list N * N * N := (cs_name s, cs_start s, dmx_end fend s).
Lemma cascade_id max l : increasing (map cs_start l) -> Forall (fun x => x < max) (map cs_start l) -> cascade max l = l.
Proof.
  induction l as [|s r IH]; intros S F; [reflexivity|]. cbn [map] in *. inversion_clear S as [|? ? S' G]. inversion_clear F as [|? ? Fs F'].
  cbn [cascade]. rewrite (IH S' F'). destruct r as [|t r].
  - replace (max <=? cs_start s) with false by lia. reflexivity.
  - cbn [map] in G. apply Forall_inv in G. replace (cs_start t <=? cs_start s) with false by lia. reflexivity.
Qed.
Lemma link_above s : forall l, Forall (fun x => x < cs_start s) (map cs_start l) -> exists r, link l s = Some r.
Proof.
  induction l as [|a l IH]; intros F; cbn [link]; [eauto|]. cbn [map] in F. inversion_clear F as [|? ? Fa F']. destruct l as [|b l].
  - replace (cs_start s <=? cs_start a) with false by lia. eauto.
  - destruct (IH F') as (r & ->). eauto.
Qed.
Lemma add_above virtual max l s : cs_next s = false -> cs_end s = no_end -> cs_start s <= max -> good max l -> Forall (fun x => x < cs_start s) (map cs_start l) ->
  (virtual = true -> N.of_nat (List.length l) < max) ->
  exists r, add_set virtual max l s = Ok (r, 0) /\ good max r /\ map named r = map named l ++ [named s].
Proof.
  intros H1 H2 H3 G F V. destruct (link_above s l F) as (r & E). pose proof (link_good max s l H1 H2 H3 G) as K. rewrite E in K. destruct K as (K & _).
  pose proof (link_named s l r E) as Nm. exists r. split; [|split; assumption]. unfold add_set. destruct virtual; [|now rewrite E].
  replace (max <=? N.of_nat (List.length l)) with false by (specialize (V eq_refl); lia).
  assert (Ni : ~ In (cs_start s) (map cs_start l)) by (intros Hi; rewrite Forall_forall in F; specialize (F _ Hi); cbn in F; lia).
  assert (Sid : with_start s (cs_start s) = s) by (destruct s; reflexivity).
  destruct (next_free_spec l max (N.to_nat (max - cs_start s)) (cs_start s)) as [(c & I1 & I2 & I3 & I4 & I5)|(I1 & I2)]; [lia|exact H3| |]; rewrite I1; cbn [bind].
  - assert (c = cs_start s). { destruct (N.eq_dec c (cs_start s)); [assumption|]. exfalso. apply Ni, I5; lia. }
    subst c. now rewrite Sid, E.
  - assert (cs_start s = max). { destruct (N.eq_dec (cs_start s) max); [assumption|]. exfalso. apply Ni, I2; lia. }
    rewrite <- H. rewrite cascade_id; [now rewrite Sid, E|apply G|exact F].
Qed.
Lemma read_nodes_back virtual reso : bytes_1_4 reso -> forall w l, good (top reso) l ->
  increasing (map cs_start l ++ map cs_start w) -> Forall (fun x => x <= top reso) (map cs_start w) ->
  (virtual = true -> N.of_nat (List.length l + List.length w) <= top reso) ->
  exists r, read_set_nodes virtual reso l (set_nodes reso w) = Ok (r, 0) /\ good (top reso) r /\ map named r = map named l ++ map named w.
Proof.
  intros Hr. induction w as [|s w IH]; intros l G S B V; cbn [set_nodes map read_set_nodes].
  - exists l. split; [reflexivity|]. split; [exact G|]. now rewrite app_nil_r.
  - cbn [map] in *. inversion_clear B as [|? ? Bs B']. destruct (C39_same_resolution (cs_start s) reso 0 Hr) as (R & _). rewrite (R Bs). cbn [bind rd_ok rd_val rd_errs].
    change (cs_start s :: map cs_start w) with ([cs_start s] ++ map cs_start w) in S. rewrite app_assoc in S.
    assert (S1 : increasing (map cs_start l ++ [cs_start s])).
    { revert S. generalize (map cs_start l ++ [cs_start s]) as p. generalize (map cs_start w) as q. clear. intros q p. unfold increasing. induction p as [|x p IH]; intros H; [constructor|].
      cbn [app] in H. inversion_clear H as [|? ? H1 H2]. constructor; [now apply IH|]. now apply Forall_app in H2. }
    apply increasing_app in S1 as (S1 & F). rewrite (max_dmx_top reso Hr).
    destruct (add_above virtual (top reso) l (mkSet (cs_name s) (cs_start s) no_end false) eq_refl eq_refl Bs G F) as (r & A1 & A2 & A3); [intros Ev; specialize (V Ev); cbn in V; lia|].
    rewrite A1. cbn [bind fst snd]. destruct (IH r A2) as (r' & I1 & I2 & I3).
    + assert (E : map cs_start r = map cs_start l ++ [cs_start s]).
      { apply (f_equal (map snd)) in A3. rewrite map_app, !map_map in A3. exact A3. }
      rewrite E. exact S.
    + exact B'.
    + intros Ev. specialize (V Ev). apply (f_equal (@List.length _)) in A3. rewrite app_length, !map_length in A3. cbn in A3, V. lia.
    + unfold set_nodes in I1. rewrite I1. cbn [bind fst snd]. exists r'. split; [reflexivity|]. split; [exact I2|]. rewrite I3, A3, <- app_assoc. reflexivity.
Qed.
Lemma tiled_view fend : forall w a b r, tiled fend a w b -> b = fend -> map named r = map named w ->
  (forall i x y, nth_error r i = Some x -> nth_error r (S i) = Some y -> dmx_end fend x + 1 = cs_start y) ->
  (forall l s, r = l ++ [s] -> dmx_end fend s = fend) -> map (view fend) r = map (view fend) w.
Proof.
  induction w as [|s w IH]; intros a b r H Hb E C L.
  - destruct r; [reflexivity|discriminate].
  - destruct r as [|t r]; [discriminate|]. cbn [map] in E. assert (E1 := f_equal (hd (named s)) E). assert (E2 := f_equal (@tl _) E). cbn [hd tl] in E1, E2. clear E.
    cbn [tiled] in H. destruct H as (H1 & H2 & H3). cbn [map]. f_equal.
    + unfold view. unfold named in E1. assert (Et : dmx_end fend t = dmx_end fend s).
      { destruct w as [|s2 w]; destruct r as [|t2 r]; try discriminate.
        - cbn [tiled] in H3. rewrite (L [] t eq_refl). lia.
        - pose proof (C 0%nat t t2 eq_refl eq_refl) as C0. cbn [tiled] in H3. destruct H3 as (H3 & _).
          cbn [map] in E2. apply (f_equal (hd (named s2))) in E2. cbn [hd] in E2. apply (f_equal snd) in E2. cbn in E2. lia. }
      rewrite Et. apply (f_equal fst) in E1 as En. apply (f_equal snd) in E1 as Es. cbn in En, Es. now rewrite En, Es.
    + apply (IH _ b r H3 Hb E2).
      * intros i x y. apply (C (S i) x y).
      * intros l u El. apply (L (t :: l) u). now rewrite El.
Qed.
(** The nodes written are read back, without an error, as the same sets with the same ranges. *)
Theorem C48_read_back : forall virtual reso fstart fend sets, bytes_1_4 reso -> fend <= 256 ^ reso - 1 -> sets <> [] -> disjoint_sets fstart fend sets ->
  let w := fill_sets sort fstart fend sets in
  (virtual = true -> N.of_nat (List.length w) <= 256 ^ reso - 1) ->
  exists r, read_sets virtual reso (set_nodes reso w) = Ok (r, 0) /\ map (view fend) r = map (view fend) w.
Proof.
  intros virtual reso fstart fend sets Hr Hf Hn D w V. change (256 ^ reso - 1) with (top reso) in *.
  assert (Hf' : fend < no_end). { assert (top reso < no_end) by (destruct (bytes_cases reso Hr) as [-> |[-> |[-> | ->]]]; vm_compute; reflexivity). lia. }
  pose proof (fill_tiled fstart fend sets Hf' Hn D) as H. fold w in H. destruct (tiled_starts _ _ _ _ H) as (S & F).
  assert (Si : increasing (map cs_start w)).
  { clear -S. unfold increasing. induction S as [|a l S IH F]; cbn [map]; constructor; [exact IH|]. clear -F. induction F; cbn [map]; constructor; assumption. }
  assert (B : Forall (fun x => x <= top reso) (map cs_start w)).
  { clear -F Hf. induction F as [|x l Fx F IH]; cbn [map]; constructor; [lia|exact IH]. }
  destruct (read_nodes_back virtual reso Hr w [] (good_nil _) Si B V) as (r & R1 & R2 & R3).
  assert (Rs : read_sets virtual reso (set_nodes reso w) = Ok (set_ends r, 0)) by (unfold read_sets; rewrite R1; reflexivity).
  exists (set_ends r). split; [exact Rs|]. destruct (C47_ends _ _ _ _ _ fend Hr Rs) as (E1 & E2).
  apply (tiled_view fend w fstart fend _ H eq_refl); [rewrite split_ends_named; exact R3|exact E1|exact E2].
Qed.
End Sort.
Print Assumptions C48_cover_partial.
Print Assumptions C48_keep.
Print Assumptions C48_stable.
Print Assumptions C48_read_back.

(** Insertion sort is such a sort. *)
Fixpoint insert_set (s : cset) (l : list cset) : list cset :=
  match l with [] => [s] | a :: r => if cs_start s <=? cs_start a then s :: l else a :: insert_set s r end.
Definition sort_sets (l : list cset) : list cset := fold_right insert_set [] l.
Lemma sort_sets_sorts : sorts sort_sets.
Proof.
  intros l. induction l as [|a l (P & S)]; cbn [sort_sets fold_right]; [split; constructor|]. change (fold_right insert_set [] l) with (sort_sets l) in *.
  assert (Pi : forall m, Permutation (insert_set a m) (a :: m)).
  { induction m as [|b m IH]; cbn [insert_set]; [reflexivity|]. destruct (_ <=? _); [reflexivity|].
    apply Permutation_trans with (b :: a :: m); [now constructor|constructor]. }
  split; [eapply Permutation_trans; [apply Pi|now constructor]|]. revert S. generalize (sort_sets l) as m. clear -Pi.
  induction m as [|b m IH]; intros S; cbn [insert_set]; [repeat constructor|]. inversion_clear S as [|? ? S' F]. destruct (_ <=? _) eqn:E.
  - constructor; [now constructor|]. constructor; [lia|]. eapply Forall_impl; [|exact F]. cbn. intros; lia.
  - constructor; [now apply IH|]. eapply Permutation_Forall; [apply Permutation_sym, Pi|]. constructor; [lia|exact F].
Qed.
Example C48_case :
  let sets := [mkSet (T"b") 50 59 false; mkSet (T"a") 20 29 true] in
  sorts sort_sets /\ disjoint_sets 10 100 sets
  /\ fill_sets sort_sets 10 100 sets
     = [filler 10 19; mkSet (T"a") 20 29 true; filler 30 49; mkSet (T"b") 50 59 false; filler 60 100]
  /\ set_nodes 1 (fill_sets sort_sets 10 100 sets) = [([], T"10/1"); (T"a", T"20/1"); ([], T"30/1"); (T"b", T"50/1"); ([], T"60/1")].
Proof.
  cbv zeta. split; [apply sort_sets_sorts|]. split.
  - split; [repeat constructor; vm_compute; discriminate|]. constructor; [constructor; [right; vm_compute; reflexivity|constructor]|]. constructor; constructor.
  - split; vm_compute; reflexivity.
Qed.
(** A function without channel sets is written without any, so its values are in none. *)
Theorem C48_empty_refuted : exists fstart fend v, fstart <= v /\ v <= fend
  /\ disjoint_sets fstart fend [] /\ hits v (map (range fend) (fill_sets sort_sets fstart fend [])) = 0%nat.
Proof. exists 0, 255, 7. split; [lia|]. split; [lia|]. split; [split; constructor|]. vm_compute. reflexivity. Qed.
Print Assumptions C48_empty_refuted.
(** Overlapping sets (10..60 and 50..99) are not noticed: the difference wraps and an upside-down
    set from 61 to 49 is written between them, which is then lost on reading. *)
Theorem C48_overlap_refuted : exists sets r, sets = [mkSet (T"a") 10 60 false; mkSet (T"b") 50 99 false]
  /\ fill_sets sort_sets 10 99 sets = [mkSet (T"a") 10 60 false; filler 61 49; mkSet (T"b") 50 99 false]
  /\ read_sets false 1 (set_nodes 1 (fill_sets sort_sets 10 99 sets)) = Ok (r, 1)
  /\ map named r = [(T"a", 10); ([], 61)].
Proof. do 2 eexists. split; [reflexivity|]. split; [vm_compute; reflexivity|]. split; vm_compute; reflexivity. Qed.
Print Assumptions C48_overlap_refuted.
