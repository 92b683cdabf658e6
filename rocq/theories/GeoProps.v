(** C50: the break list of a mode. *)
From Coq Require Import List NArith ZArith Bool Lia Sorted Permutation Relations Wellfounded.
From Coq Require Import ZifyN ZifyNat ZifyBool.
From Verif Require Import Bytes NumModel DmxModel GeoModel.
Import ListNotations.
Open Scope N_scope.

Lemma bind_ok {A B} (x : res A) (f : A -> res B) y : bind x f = Ok y -> exists a, x = Ok a /\ f a = Ok y.
Proof. destruct x; cbn; intros; try discriminate. eauto. Qed.

(** ** Specification *)
(** [g] is [r] or lies below it, following [succ]. *)
Inductive reach (succ : N -> list N) (r : N) : N -> Prop :=
| reach_here : reach succ r r
| reach_next g g' : reach succ r g -> In g' (succ g) -> reach succ r g'.
(** Children of [x], and children and links of [x]. *)
Definition child (h : store) (x y : N) : Prop := In y (g_kids (h x)).
Definition child_or_link (h : store) (x y : N) : Prop :=
  In y (g_kids (h x)) \/ exists r, g_ref (h x) = Some r /\ r_link r = Some y.
(** There is no endless path below [g]. *)
Definition ends_below (R : N -> N -> Prop) (g : N) : Prop := Acc (fun y x => R x y) g.
(** The reference [r] occurs in the geometry tree of the mode, links followed. *)
Definition in_mode (h : store) (root : option N) (r : gref) : Prop :=
  exists g0 g, root = Some g0 /\ clos_refl_trans N (child_or_link h) g0 g /\ g_ref (h g) = Some r.
(** The geometry [g] belongs to the referenced geometry of [r]. *)
Definition in_ref (h : store) (r : gref) (g : N) : Prop :=
  exists l, r_link r = Some l /\ clos_refl_trans N (child h) l g.
Definition is_last {A} (a : A) (l : list A) : Prop := exists l0, l = l0 ++ [a].
(** The breaks of a mode: those of the channels; a channel with "overwrite" takes the last break of each
    reference to the geometry it belongs to. *)
Definition uses_break (h : store) (root : option N) (chans : list chan) (b : Z) : Prop :=
  exists c, In c chans /\
    (c_break c <> 0%Z /\ c_break c = b \/
     c_break c = 0%Z /\ exists r g a, in_mode h root r /\ c_geo c = Some g /\ in_ref h r g /\ is_last (b, a) (r_breaks r)).

(** ** The walk *)
Section Walk.
Variable succ : N -> list N.
Lemma walk_mono : forall f s x k, walk succ f s = x -> x <> Loop -> walk succ (f + k) s = x.
Proof.
  induction f; intros [|g r] x k H Hx; cbn [walk Nat.add] in *; try congruence.
  - destruct k; exact H.
  - destruct (walk succ f (rev (succ g) ++ r)) eqn:E.
    + rewrite (IHf _ _ k E) by discriminate. exact H.
    + rewrite (IHf _ _ k E) by discriminate. exact H.
    + rewrite (IHf _ _ k E) by discriminate. exact H.
    + cbn in H. congruence.
Qed.
Lemma walk_cases : forall f s, walk succ f s = Loop \/ exists l, walk succ f s = Ok l.
Proof.
  induction f; intros [|g r]; cbn [walk]; eauto.
  destruct (IHf (rev (succ g) ++ r)) as [E|(l & E)]; rewrite E; cbn; eauto.
Qed.
Lemma walk_unique f f' s l l' : walk succ f s = Ok l -> walk succ f' s = Ok l' -> l = l'.
Proof.
  intros H H'. pose proof (walk_mono _ _ _ f' H ltac:(discriminate)) as A. pose proof (walk_mono _ _ _ f H' ltac:(discriminate)) as B.
  replace (f' + f)%nat with (f + f')%nat in B by lia. congruence.
Qed.
Lemma reach_trans a b c : reach succ a b -> reach succ b c -> reach succ a c.
Proof. intros H K. induction K; [exact H|]. econstructor; eassumption. Qed.
Lemma walk_in : forall f s l, walk succ f s = Ok l -> forall g, In g l <-> exists s0, In s0 s /\ reach succ s0 g.
Proof.
  induction f; intros [|x r] l H g; cbn [walk] in H; try discriminate.
  - injection H as <-. split; [intros []|intros (? & [] & _)].
  - injection H as <-. split; [intros []|intros (? & [] & _)].
  - apply bind_ok in H. destruct H as (l' & Hw & H). injection H as <-. specialize (IHf _ _ Hw g).
    split.
    + intros [->|Hi]. { exists g. split; [left; reflexivity|constructor]. }
      apply IHf in Hi. destruct Hi as (s0 & Hs & Hr). apply in_app_or in Hs. destruct Hs as [Hs|Hs].
      * exists x. split; [left; reflexivity|]. apply in_rev in Hs.
        apply (reach_trans _ s0); [|exact Hr]. econstructor; [constructor|exact Hs].
      * exists s0. split; [right; exact Hs|exact Hr].
    + intros (s0 & [<-|Hs] & Hr).
      * assert (D : g = x \/ exists y, In y (succ x) /\ reach succ y g).
        { clear - Hr. induction Hr as [|g g' Hr IH Hi]; [left; reflexivity|]. right.
          destruct IH as [->|(y & Hy & IH)]; [exists g'; split; [exact Hi|constructor]|exists y; split; [exact Hy|econstructor; eassumption]]. }
        destruct D as [->|(y & Hy & Hr')]; [left; reflexivity|]. right. apply IHf. exists y. split; [|exact Hr'].
        apply in_or_app. left. apply in_rev. rewrite rev_involutive. exact Hy.
      * right. apply IHf. exists s0. split; [apply in_or_app; right; exact Hs|exact Hr].
Qed.
Lemma walk_ends : forall s, Forall (fun g => ends_below (fun x y => In y (succ x)) g) s -> exists f l, walk succ f s = Ok l.
Proof.
  assert (One : forall g, ends_below (fun x y => In y (succ x)) g -> forall r, (exists f l, walk succ f r = Ok l) -> exists f l, walk succ f (g :: r) = Ok l).
  { intros g A. induction A as [g _ IH]. intros r Hr.
    assert (P : forall q, (forall y, In y q -> In y (succ g)) -> exists f l, walk succ f (q ++ r) = Ok l).
    { induction q as [|y q IHq]; intros Hq; [exact Hr|]. cbn [app]. apply (IH y).
      - apply Hq. left. reflexivity.
      - apply IHq. intros z Hz. apply Hq. right. exact Hz. }
    destruct (P (rev (succ g))) as (f & l & Hw). { intros y Hy. apply in_rev. exact Hy. }
    exists (S f), (g :: l). cbn [walk]. rewrite Hw. reflexivity. }
  induction s as [|g r IH]; intros F. { exists O, []. reflexivity. }
  inversion F; subst. apply One; [assumption|]. apply IH. assumption.
Qed.
Lemma walk_acc : forall f s l, walk succ f s = Ok l -> Forall (fun g => ends_below (fun x y => In y (succ x)) g) s.
Proof.
  induction f; intros [|g r] l H; cbn [walk] in H; try discriminate; try constructor.
  - apply bind_ok in H. destruct H as (l' & Hw & _). apply IHf in Hw. apply Forall_app in Hw. destruct Hw as (Hk & _).
    constructor. intros y Hy. apply (proj1 (Forall_forall _ _) Hk). apply in_rev. rewrite rev_involutive. exact Hy.
  - apply bind_ok in H. destruct H as (l' & Hw & _). apply IHf in Hw. apply Forall_app in Hw. apply Hw.
Qed.
End Walk.

Lemma kids_links_in h x y : In y (kids_links h x) <-> child_or_link h x y.
Proof.
  unfold kids_links, child_or_link. rewrite in_app_iff. apply or_iff_compat_l.
  destruct (g_ref (h x)) as [r|]; [|split; [intros []|intros (? & [=] & _)]].
  unfold link_list. split.
  - destruct (r_link r) as [l|] eqn:E; [|intros []]. intros [<-|[]]. exists r. auto.
  - intros (r' & [= <-] & E). rewrite E. left. reflexivity.
Qed.
Lemma reach_rt succ (R : N -> N -> Prop) a b : (forall x y, In y (succ x) <-> R x y) -> reach succ a b <-> clos_refl_trans N R a b.
Proof.
  intros HR. split.
  - induction 1 as [|g g' _ IH Hi]; [apply rt_refl|]. eapply rt_trans; [exact IH|]. apply rt_step, HR, Hi.
  - intros H. apply clos_rt_rtn1 in H. induction H as [|y z S _ IH]; [constructor|]. econstructor; [exact IH|]. apply HR, S.
Qed.
Lemma ends_ext (R R' : N -> N -> Prop) g : (forall x y, R x y <-> R' x y) -> ends_below R g -> ends_below R' g.
Proof. intros E A. induction A as [g _ IH]. constructor. intros y Hy. apply IH, E, Hy. Qed.

(** ** Sorting and the break list *)
Lemma insert_perm x l : Permutation (insert x l) (x :: l).
Proof.
  induction l as [|y r IH]; cbn [insert]; [reflexivity|]. destruct (x <=? y)%Z; [reflexivity|].
  etransitivity; [apply perm_skip, IH|apply perm_swap].
Qed.
Lemma sort_perm l : Permutation (sort_z l) l.
Proof. induction l; cbn [sort_z fold_right]; [reflexivity|]. etransitivity; [apply insert_perm|]. apply perm_skip, IHl. Qed.
Lemma insert_sorted x l : StronglySorted Z.lt l -> ~ In x l -> StronglySorted Z.lt (insert x l).
Proof.
  induction l as [|y r IH]; intros S Hn; cbn [insert]; [repeat constructor|]. inversion S as [|? ? S' F]; subst.
  destruct (Z.leb_spec x y).
  - constructor; [exact S|]. assert (x <> y) by (intros ->; apply Hn; left; reflexivity).
    constructor; [lia|]. eapply Forall_impl; [|exact F]. cbv beta. lia.
  - constructor. { apply IH; [exact S'|]. intros Hi. apply Hn. right. exact Hi. }
    apply Forall_forall. intros z Hz. apply (Permutation_in _ (insert_perm x r)) in Hz. destruct Hz as [<-|Hz]; [lia|].
    exact (proj1 (Forall_forall _ _) F z Hz).
Qed.
Lemma sort_sorted l : NoDup l -> StronglySorted Z.lt (sort_z l).
Proof.
  induction 1; cbn [sort_z fold_right]; [constructor|]. apply insert_sorted; [exact IHNoDup|].
  intros Hi. apply (Permutation_in _ (sort_perm l)) in Hi. contradiction.
Qed.
Lemma add_new_in x l y : In y (add_new x l) <-> y = x \/ In y l.
Proof.
  unfold add_new. destruct (existsb (Z.eqb x) l) eqn:E.
  - apply existsb_exists in E. destruct E as (z & Hz & E). apply Z.eqb_eq in E. subst z. split; [tauto|]. intros [->|H]; assumption.
  - rewrite in_app_iff. cbn [In]. intuition congruence.
Qed.
Lemma add_new_nodup x l : NoDup l -> NoDup (add_new x l).
Proof.
  intros H. unfold add_new. destruct (existsb (Z.eqb x) l) eqn:E; [exact H|].
  apply (Permutation_NoDup (Permutation_cons_append l x)). constructor; [|exact H]. intros Hi.
  assert (existsb (Z.eqb x) l = true) by (apply existsb_exists; exists x; split; [exact Hi|apply Z.eqb_refl]). congruence.
Qed.
Lemma back_ok {A} (l : list A) a : back l = Ok a <-> is_last a l.
Proof.
  induction l as [|x r IH]; cbn [back].
  - split; [discriminate|]. intros (l0 & E). destruct l0; discriminate.
  - destruct r as [|y r].
    + split. { intros [= ->]. exists []. reflexivity. } intros ([|? l0] & E); [injection E as ->; reflexivity|]. injection E as _ E. destruct l0; discriminate.
    + rewrite IH. split; intros (l0 & E). { exists (x :: l0). cbn. rewrite E. reflexivity. }
      destruct l0 as [|z l0]; [discriminate|]. injection E as -> E. exists l0. exact E.
Qed.
Lemma back_cases {A} (l : list A) : l = [] /\ back l = UB \/ exists a, back l = Ok a.
Proof.
  destruct l as [|a r]; [left; split; reflexivity|right]. revert a. induction r as [|b r IH]; intros a; cbn [back]; [eauto|].
  apply IH.
Qed.
Lemma same_geo_iff a b : same_geo a b = true <-> a = b.
Proof. destruct a, b; cbn; split; intros H; try discriminate; try reflexivity; [apply N.eqb_eq in H; congruence|injection H as ->; apply N.eqb_refl]. Qed.
Lemma add_refs_in geo : forall refs bs l, add_refs geo refs bs = Ok l ->
  forall b, In b l <-> In b bs \/ exists r a, In r refs /\ r_link r = geo /\ is_last (b, a) (r_breaks r).
Proof.
  induction refs as [|r refs IH]; intros bs l H b; cbn [add_refs] in H.
  - injection H as <-. split; [tauto|]. intros [Hi|(? & ? & [] & _)]; exact Hi.
  - destruct (same_geo (r_link r) geo) eqn:E.
    + apply bind_ok in H. destruct H as ([b0 a0] & Hb & H). apply back_ok in Hb. apply same_geo_iff in E.
      rewrite (IH _ _ H). rewrite add_new_in. cbn [fst]. split.
      * intros [[->|Hi]|(r' & a & Hi & Hl & Hb')]; [right; exists r, a0; cbn; auto|left; exact Hi|right; exists r', a; cbn; auto].
      * intros [Hi|(r' & a & [<-|Hi] & Hl & Hb')]; [auto| |right; exists r', a; auto].
        left; left. destruct Hb as (p & Ep), Hb' as (q & Eq). rewrite Ep in Eq. apply app_inj_tail in Eq. destruct Eq as (_ & Eq). congruence.
    + rewrite (IH _ _ H). assert (r_link r <> geo) by (intros D; apply same_geo_iff in D; congruence).
      split; (intros [Hi|(r' & a & Hi & Hl & Hb')]; [auto|right; exists r', a]); [cbn; auto|].
      destruct Hi as [<-|Hi]; [contradiction|auto].
Qed.
Lemma add_refs_nodup geo : forall refs bs l, add_refs geo refs bs = Ok l -> NoDup bs -> NoDup l.
Proof.
  induction refs as [|r refs IH]; intros bs l H D; cbn [add_refs] in H; [injection H as <-; exact D|].
  destruct (same_geo (r_link r) geo); [|eapply IH; eassumption]. apply bind_ok in H. destruct H as ([b0 a0] & _ & H).
  eapply IH; [exact H|]. apply add_new_nodup, D.
Qed.
Lemma add_refs_ub geo : forall refs bs, (exists l, add_refs geo refs bs = Ok l) \/
  add_refs geo refs bs = UB /\ exists r, In r refs /\ r_link r = geo /\ r_breaks r = [].
Proof.
  induction refs as [|r refs IH]; intros bs; cbn [add_refs]; [left; eauto|]. destruct (same_geo (r_link r) geo) eqn:E.
  - apply same_geo_iff in E. destruct (back_cases (r_breaks r)) as [(E0 & ->)|([b a] & ->)]; cbn [bind].
    + right. split; [reflexivity|]. exists r. cbn; auto.
    + destruct (IH (add_new (fst (b, a)) bs)) as [?|(E1 & r' & Hi & Hr)]; [auto|]. right. split; [exact E1|]. exists r'. cbn; auto.
  - destruct (IH bs) as [?|(E1 & r' & Hi & Hr)]; [auto|]. right. split; [exact E1|]. exists r'. cbn; auto.
Qed.
Lemma add_refs_bad geo : forall refs bs l, add_refs geo refs bs = Ok l -> forall r, In r refs -> r_link r = geo -> r_breaks r <> [].
Proof.
  induction refs as [|r refs IH]; intros bs l H r' Hi Hl E; [destruct Hi|]. cbn [add_refs] in H.
  destruct (same_geo (r_link r) geo) eqn:Es.
  - apply bind_ok in H. destruct H as (x & Hb & H). destruct Hi as [->|Hi]; [rewrite E in Hb; discriminate|]. eapply IH; eassumption.
  - destruct Hi as [->|Hi]; [|eapply IH; eassumption]. apply same_geo_iff in Hl. congruence.
Qed.
(** What the channels contribute. *)
Definition contributes (refs : list gref) (c : chan) (b : Z) : Prop :=
  c_break c <> 0%Z /\ c_break c = b \/
  c_break c = 0%Z /\ exists r a, In r refs /\ r_link r = c_geo c /\ is_last (b, a) (r_breaks r).
Lemma add_channels_in refs : forall chans bs l, add_channels refs chans bs = Ok l ->
  forall b, In b l <-> In b bs \/ exists c, In c chans /\ contributes refs c b.
Proof.
  induction chans as [|c chans IH]; intros bs l H b; cbn [add_channels] in H.
  - injection H as <-. split; [tauto|]. intros [Hi|(? & [] & _)]; exact Hi.
  - destruct (Z.eqb_spec (c_break c) 0) as [Ez|Ez].
    + apply bind_ok in H. destruct H as (bs' & Hr & H). rewrite (IH _ _ H), (add_refs_in _ _ _ _ Hr). split.
      * intros [[Hi|Hi]|(c' & Hi & Hc)]; [auto|right; exists c; split; [left; reflexivity|right; auto]|right; exists c'; cbn; auto].
      * intros [Hi|(c' & [<-|Hi] & Hc)]; [auto| |right; exists c'; auto]. destruct Hc as [(? & _)|(_ & Hc)]; [contradiction|auto].
    + rewrite (IH _ _ H), add_new_in. split.
      * intros [[->|Hi]|(c' & Hi & Hc)]; [right; exists c; split; [left; reflexivity|left; auto]|auto|right; exists c'; cbn; auto].
      * intros [Hi|(c' & [<-|Hi] & Hc)]; [auto| |right; exists c'; auto]. destruct Hc as [(_ & ->)|(? & _)]; [auto|contradiction].
Qed.
Lemma add_channels_nodup refs : forall chans bs l, add_channels refs chans bs = Ok l -> NoDup bs -> NoDup l.
Proof.
  induction chans as [|c chans IH]; intros bs l H D; cbn [add_channels] in H; [injection H as <-; exact D|].
  destruct (c_break c =? 0)%Z.
  - apply bind_ok in H. destruct H as (bs' & Hr & H). eapply IH; [exact H|]. eapply add_refs_nodup; eassumption.
  - eapply IH; [exact H|]. apply add_new_nodup, D.
Qed.
Lemma add_channels_ub refs : forall chans bs, (exists l, add_channels refs chans bs = Ok l) \/
  add_channels refs chans bs = UB /\ exists c r, In c chans /\ c_break c = 0%Z /\ In r refs /\ r_link r = c_geo c /\ r_breaks r = [].
Proof.
  induction chans as [|c chans IH]; intros bs; cbn [add_channels]; [left; eauto|]. destruct (Z.eqb_spec (c_break c) 0) as [Ez|Ez].
  - destruct (add_refs_ub (c_geo c) refs bs) as [(l & ->)|(-> & r & Hr)]; cbn [bind].
    + destruct (IH l) as [?|(E1 & c' & r' & Hi & Hr)]; [auto|]. right. split; [exact E1|]. exists c', r'. cbn; tauto.
    + right. split; [reflexivity|]. exists c, r. cbn; tauto.
  - destruct (IH (add_new (c_break c) bs)) as [?|(E1 & c' & r' & Hi & Hr)]; [auto|]. right. split; [exact E1|]. exists c', r'. cbn; tauto.
Qed.
Lemma add_channels_bad refs : forall chans bs l, add_channels refs chans bs = Ok l ->
  forall c r, In c chans -> c_break c = 0%Z -> In r refs -> r_link r = c_geo c -> r_breaks r <> [].
Proof.
  induction chans as [|c chans IH]; intros bs l H c' r Hc Hz Hr Hl; [destruct Hc|]. cbn [add_channels] in H.
  destruct (Z.eqb_spec (c_break c) 0) as [Ez|Ez].
  - apply bind_ok in H. destruct H as (bs' & Ha & H). destruct Hc as [<-|Hc]; [|eapply IH; eassumption]. eapply add_refs_bad; eassumption.
  - destruct Hc as [<-|Hc]; [contradiction|]. eapply IH; eassumption.
Qed.

Lemma refs_of_in h geos r : In r (refs_of h geos) <-> exists g, In g geos /\ g_ref (h g) = Some r.
Proof.
  unfold refs_of. rewrite in_flat_map. split; intros (g & Hg & H); exists g; (split; [exact Hg|]).
  - destruct (g_ref (h g)) as [r'|]; [|destruct H]. destruct H as [->|[]]. reflexivity.
  - rewrite H. left. reflexivity.
Qed.
Lemma walk_refs h root f geos : walk (kids_links h) f (link_list root) = Ok geos -> forall r, In r (refs_of h geos) <-> in_mode h root r.
Proof.
  intros H r. rewrite refs_of_in. unfold in_mode. split.
  - intros (g & Hg & E). apply (walk_in _ _ _ _ H) in Hg. destruct Hg as (g0 & H0 & Hr). exists g0, g.
    destruct root as [x|]; [|destruct H0]. destruct H0 as [->|[]]. split; [reflexivity|]. split; [|exact E].
    apply (reach_rt (kids_links h) (child_or_link h) g0 g (kids_links_in h)). exact Hr.
  - intros (g0 & g & -> & Hr & E). exists g. split; [|exact E]. apply (walk_in _ _ _ _ H). exists g0. split; [left; reflexivity|].
    apply (reach_rt (kids_links h) (child_or_link h) g0 g (kids_links_in h)). exact Hr.
Qed.

(** ** C50 *)
(** The computation ends exactly if no endless chain of children and links starts at the geometry of the
    mode. *)
Theorem C50_terminates_iff : forall h g chans,
  (exists fuel, break_array fuel h (Some g) chans <> Loop) <-> ends_below (child_or_link h) g.
Proof.
  intros h g chans. split.
  - intros (f & H). unfold break_array in H. destruct (walk_cases (kids_links h) f (link_list (Some g))) as [E|(l & E)].
    + rewrite E in H. cbn in H. congruence.
    + apply walk_acc in E. inversion E; subst. eapply ends_ext; [|eassumption]. intros x y. apply kids_links_in.
  - intros A. destruct (walk_ends (kids_links h) [g]) as (f & l & E).
    { constructor; [|constructor]. eapply ends_ext; [|exact A]. intros x y. symmetry. apply kids_links_in. }
    exists f. unfold break_array. cbn [link_list]. rewrite E. cbn [bind].
    destruct (add_channels_ub (refs_of h l) chans []) as [(bs & ->)|(-> & _)]; discriminate.
Qed.
(** A reference that leads back to a geometry above it: never. *)
Theorem C50_cycle : forall h g g' chans, clos_refl_trans N (child_or_link h) g g' -> clos_trans N (child_or_link h) g' g' ->
  forall fuel, break_array fuel h (Some g) chans = Loop.
Proof.
  intros h g g' chans Hr Hc fuel.
  assert (N : ~ ends_below (child_or_link h) g).
  { intros A. assert (A' : ends_below (child_or_link h) g').
    { clear Hc. apply clos_rt_rt1n in Hr. induction Hr as [|x y z Hs _ IH]; [exact A|]. apply IH. inversion A as [B]. apply B, Hs. }
    clear A Hr. unfold ends_below in A'. apply Acc_clos_trans in A'.
    assert (Hc' : clos_trans N (fun y x => child_or_link h x y) g' g').
    { clear A'. assert (Q : forall a b, clos_trans N (child_or_link h) a b -> clos_trans N (fun y x => child_or_link h x y) b a).
      { induction 1; [apply t_step; assumption|eapply t_trans; eassumption]. } apply Q, Hc. }
    clear Hc. induction A' as [x _ IH]. exact (IH x Hc' Hc'). }
  destruct (break_array fuel h (Some g) chans) eqn:E; try reflexivity; exfalso; apply N; apply (C50_terminates_iff h g chans); exists fuel; rewrite E; discriminate.
Qed.
(** More fuel does not change the result. *)
Theorem C50_unique : forall h root chans f f' x y,
  break_array f h root chans = x -> break_array f' h root chans = y -> x <> Loop -> y <> Loop -> x = y.
Proof.
  intros h root chans f f' x y <- <- Hx Hy. unfold break_array in *.
  destruct (walk_cases (kids_links h) f (link_list root)) as [E|(l & E)]; rewrite E in *; [cbn in Hx; congruence|].
  destruct (walk_cases (kids_links h) f' (link_list root)) as [E'|(l' & E')]; rewrite E' in *; [cbn in Hy; congruence|].
  rewrite (walk_unique _ _ _ _ _ _ E E'). reflexivity.
Qed.
(** The list is strictly increasing: sorted and free of duplicates. *)
Theorem C50_sorted : forall fuel h root chans l, break_array fuel h root chans = Ok l -> StronglySorted Z.lt l.
Proof.
  intros fuel h root chans l H. unfold break_array in H. apply bind_ok in H. destruct H as (geos & _ & H).
  apply bind_ok in H. destruct H as (bs & Hb & H). injection H as <-. apply sort_sorted. eapply add_channels_nodup; [exact Hb|constructor].
Qed.
(** What it contains: for "overwrite" channels only references that link to the geometry itself count. *)
Theorem C50_contents : forall fuel h root chans l, break_array fuel h root chans = Ok l -> forall b, In b l <->
  exists c, In c chans /\
    (c_break c <> 0%Z /\ c_break c = b \/
     c_break c = 0%Z /\ exists r a, in_mode h root r /\ r_link r = c_geo c /\ is_last (b, a) (r_breaks r)).
Proof.
  intros fuel h root chans l H b. unfold break_array in H. apply bind_ok in H. destruct H as (geos & Hw & H).
  apply bind_ok in H. destruct H as (bs & Hb & H). injection H as <-.
  transitivity (In b bs). { split; apply Permutation_in; [|symmetry]; apply sort_perm. }
  rewrite (add_channels_in _ _ _ _ Hb). unfold contributes. split.
  - intros [[]|(c & Hc & D)]. exists c. split; [exact Hc|]. destruct D as [D|(Hz & r & a & Hr & D)]; [left; exact D|].
    right. split; [exact Hz|]. exists r, a. split; [|exact D]. apply (walk_refs _ _ _ _ Hw). exact Hr.
  - intros (c & Hc & D). right. exists c. split; [exact Hc|]. destruct D as [D|(Hz & r & a & Hr & D)]; [left; exact D|].
    right. split; [exact Hz|]. exists r, a. split; [|exact D]. apply (walk_refs _ _ _ _ Hw). exact Hr.
Qed.
(** It is exactly the list of used breaks if the geometries of the overwrite channels are only reached
    by links to the geometry itself. *)
Definition linked_directly (h : store) (root : option N) (chans : list chan) : Prop :=
  forall c, In c chans -> c_break c = 0%Z -> exists g, c_geo c = Some g /\ forall r, in_mode h root r -> in_ref h r g -> r_link r = Some g.
Theorem C50_exact_partial : forall fuel h root chans l, linked_directly h root chans -> break_array fuel h root chans = Ok l ->
  forall b, In b l <-> uses_break h root chans b.
Proof.
  intros fuel h root chans l L H b. rewrite (C50_contents _ _ _ _ _ H). unfold uses_break.
  split; intros (c & Hc & D); exists c; (split; [exact Hc|]); (destruct D as [D|(Hz & D)]; [left; exact D|right; split; [exact Hz|]]); destruct (L c Hc Hz) as (g & Eg & Hg).
  - destruct D as (r & a & Hm & Hl & Hb). exists r, g, a. repeat split; try assumption. exists g. split; [congruence|apply rt_refl].
  - destruct D as (r & g' & a & Hm & Eg' & Hi & Hb). assert (g' = g) by congruence. subst g'. exists r, a. repeat split; try assumption. rewrite Eg. apply Hg; assumption.
Qed.
(** Undefined behaviour exactly if a reference without breaks links to the geometry of an overwrite
    channel. *)
Theorem C50_undefined_iff : forall fuel h root chans, break_array fuel h root chans <> Loop ->
  (break_array fuel h root chans = UB <->
   exists c r, In c chans /\ c_break c = 0%Z /\ in_mode h root r /\ r_link r = c_geo c /\ r_breaks r = []).
Proof.
  intros fuel h root chans Hl. unfold break_array in *.
  destruct (walk_cases (kids_links h) fuel (link_list root)) as [E|(l & E)]; rewrite E in *; cbn [bind] in *; [congruence|].
  pose proof (walk_refs _ _ _ _ E) as W. split.
  - destruct (add_channels_ub (refs_of h l) chans []) as [(bs & ->)|(_ & c & r & Hc & Hz & Hr & D)]; [cbn; discriminate|].
    intros _. exists c, r. repeat split; try tauto. apply W, Hr.
  - intros (c & r & Hc & Hz & Hr & Hk & Hb). destruct (add_channels_ub (refs_of h l) chans []) as [(bs & Eb)|(-> & _)]; [|reflexivity].
    exfalso. apply (add_channels_bad _ _ _ _ Eb c r Hc Hz); [apply W; exact Hr|exact Hk|exact Hb].
Qed.

(** ** Cases *)
(** Geometry 0 with two references 1 and 2 to geometry 3; geometry 3 has the child 4. *)
Definition two_refs : store := fun g =>
  match g with
  | 0 => mkGeo [1; 2] None
  | 1 => mkGeo [] (Some (mkRef (Some 3) [(1%Z, 1); (2%Z, 1)]))
  | 2 => mkGeo [] (Some (mkRef (Some 3) [(1%Z, 11); (3%Z, 1)]))
  | 3 => mkGeo [4] None
  | _ => mkGeo [] None
  end.
Definition two_chans : list chan := [mkChan (Some 3) 1 (1, 2, 0, 0); mkChan (Some 3) 0 (5, 0, 0, 0); mkChan (Some 0) 7 (1, 0, 0, 0)].
Lemma two_refs_mode r : in_mode two_refs (Some 0) r -> r_link r = Some 3.
Proof.
  intros (g0 & g & [= <-] & H & E). destruct g as [|p]; [discriminate|].
  destruct p as [[p|p|]|[p|p|]|]; try discriminate; injection E as <-; reflexivity.
Qed.
Example C50_case : break_array 10 two_refs (Some 0) two_chans = Ok [1; 2; 3; 7]%Z /\ linked_directly two_refs (Some 0) two_chans.
Proof.
  split; [vm_compute; reflexivity|]. intros c Hc Hz. destruct Hc as [<-|[<-|[<-|[]]]]; try discriminate Hz.
  exists 3. split; [reflexivity|]. intros r Hm _. apply two_refs_mode, Hm.
Qed.
(** A reference to the geometry it is part of. *)
Definition loop_refs : store := fun g => match g with 0 => mkGeo [1] None | _ => mkGeo [] (Some (mkRef (Some 0) [(1%Z, 1)])) end.
Theorem C50_cycle_refuted : exists h root chans, forall fuel, break_array fuel h root chans = Loop.
Proof.
  exists loop_refs, (Some 0), []. apply (C50_cycle loop_refs 0 0 []); [apply rt_refl|].
  eapply t_trans; apply t_step; [left; left; reflexivity|]. right. exists (mkRef (Some 0) [(1%Z, 1)]). split; reflexivity.
Qed.
(** The overwrite channel of a child of the referenced geometry is missed. *)
Theorem C50_child_refuted : exists h root chans l, break_array 10 h root chans = Ok l /\ uses_break h root chans 2 /\ ~ In 2%Z l.
Proof.
  exists two_refs, (Some 0), [mkChan (Some 4) 0 (1, 0, 0, 0)], []. split; [vm_compute; reflexivity|]. split; [|intros []].
  exists (mkChan (Some 4) 0 (1, 0, 0, 0)). split; [left; reflexivity|]. right. split; [reflexivity|].
  exists (mkRef (Some 3) [(1%Z, 1); (2%Z, 1)]), 4, 1. split.
  - exists 0, 1. split; [reflexivity|]. split; [apply rt_step; left; left; reflexivity|reflexivity].
  - split; [reflexivity|]. split; [exists 3; split; [reflexivity|apply rt_step; left; reflexivity]|]. exists [(1%Z, 1)]. reflexivity.
Qed.
(** A reference without breaks. *)
Definition no_breaks : store := fun g =>
  match g with 0 => mkGeo [1] None | 1 => mkGeo [] (Some (mkRef (Some 3) [])) | _ => mkGeo [] None end.
Theorem C50_undefined_refuted : exists h root chans, break_array 10 h root chans = UB /\ forall g, ends_below (child_or_link h) g.
Proof.
  exists no_breaks, (Some 0), [mkChan (Some 3) 0 (1, 0, 0, 0)]. split; [vm_compute; reflexivity|].
  assert (A3 : forall g, g <> 0 -> g <> 1 -> ends_below (child_or_link no_breaks) g).
  { intros g H0 H1. constructor. intros y Hy. exfalso. unfold child_or_link, no_breaks in Hy.
    destruct g as [|[p|p|]]; try contradiction; cbn in Hy; destruct Hy as [[]|(r & [=] & _)]. }
  assert (A1 : ends_below (child_or_link no_breaks) 1).
  { constructor. intros y [[]|(r & [= <-] & [= <-])]. apply A3; discriminate. }
  intros g. destruct (N.eq_dec g 0) as [->|H0]; [|destruct (N.eq_dec g 1) as [->|H1]; [exact A1|apply A3; assumption]].
  constructor. intros y [[<-|[]]|(r & [=] & _)]. exact A1.
Qed.

Print Assumptions C50_terminates_iff.
Print Assumptions C50_cycle.
Print Assumptions C50_unique.
Print Assumptions C50_sorted.
Print Assumptions C50_contents.
Print Assumptions C50_exact_partial.
Print Assumptions C50_undefined_iff.
Print Assumptions C50_cycle_refuted.
Print Assumptions C50_child_refuted.
Print Assumptions C50_undefined_refuted.
