(** C49: the footprint of a break. *)
From Coq Require Import List NArith ZArith Bool Lia Sorted Permutation Relations.
From Coq Require Import ZifyN ZifyNat ZifyBool.
From Verif Require Import Bytes NumModel DmxModel GeoModel GeoProps.
Import ListNotations.
Open Scope N_scope.
Ltac Zify.zify_post_hook ::= Z.div_mod_to_equations.

(** ** Specification *)
(** The offsets in use; those that are not zero come first. *)
Definition used_offset (c : chan) (o : N) : Prop :=
  let '(x, y, z, w) := c_offs c in o <> 0 /\ (o = x \/ o = y \/ o = z \/ o = w).
Definition no_hole (c : chan) : Prop :=
  let '(x, y, z, w) := c_offs c in (x = 0 -> y = 0) /\ (y = 0 -> z = 0) /\ (z = 0 -> w = 0).
(** The address the reference gives for break [b]. *)
Definition gives (r : gref) (b : Z) (adr : N) : Prop :=
  exists p q, r_breaks r = p ++ (b, adr) :: q /\ ~ In b (map fst p).
Definition in_tree (h : store) (root : option N) (g : N) : Prop :=
  exists g0, root = Some g0 /\ clos_refl_trans N (child h) g0 g.
(** Address [a] is used in break [b] by a channel at [g], or through a reference at [g]: an offset of 1
    lands on the address of the reference. *)
Definition uses_at (h : store) (chans : list chan) (b : Z) (g : N) (a : N) : Prop :=
  exists c o, In c chans /\ used_offset c o /\
    (c_geo c = Some g /\ c_break c = b /\ a = o \/
     exists r g' adr, g_ref (h g) = Some r /\ in_ref h r g' /\ c_geo c = Some g' /\ a + 1 = o + adr /\
       (c_break c = b /\ gives r b adr \/ c_break c = 0%Z /\ is_last (b, adr) (r_breaks r))).
Definition uses_address (h : store) (root : option N) (chans : list chan) (b : Z) (a : N) : Prop :=
  exists g, in_tree h root g /\ uses_at h chans b g a.
(** The break ids of a reference begin with those of the channels it leads to, in increasing order. *)
Definition ordered (h : store) (chans : list chan) (r : gref) : Prop :=
  exists ids rest, map fst (r_breaks r) = ids ++ rest /\ StronglySorted Z.lt ids /\
    forall b, In b ids <-> b <> 0%Z /\ exists c g, In c chans /\ c_geo c = Some g /\ in_ref h r g /\ c_break c = b.
Definition sint32 (b : Z) : Prop := (- 2147483648 <= b < 2147483648)%Z.
Record tidy (h : store) (root : option N) (chans : list chan) : Prop := {
  td_ends : forall g, root = Some g -> ends_below (child_or_link h) g;
  td_direct : linked_directly h root chans;
  td_breaks : forall r, in_mode h root r -> r_breaks r <> [];
  td_order : forall g r, in_tree h root g -> g_ref (h g) = Some r -> ordered h chans r;
  td_flat : forall g r g', in_tree h root g -> g_ref (h g) = Some r -> in_ref h r g' -> g_ref (h g') = None;
  td_address : forall r b a, in_mode h root r -> In (b, a) (r_breaks r) -> 1 <= a < 65536;
  td_chans : forall c, In c chans -> no_hole c /\ sint32 (c_break c) }.

(** ** Lemmas *)
Definition ev (P : nat -> Prop) : Prop := exists F, forall f, (F <= f)%nat -> P f.
Lemma ev_and P Q : ev P -> ev Q -> ev (fun f => P f /\ Q f).
Proof. intros (F & H) (G & K). exists (F + G)%nat. intros f Hf. split; [apply H|apply K]; lia. Qed.
Lemma ev_impl (P Q : nat -> Prop) : (forall f, P f -> Q f) -> ev P -> ev Q.
Proof. intros I (F & H). exists F. intros f Hf. apply I, H, Hf. Qed.
Lemma walk_ev succ s : Forall (fun g => ends_below (fun x y => In y (succ x)) g) s -> exists l, ev (fun f => walk succ f s = Ok l).
Proof.
  intros A. destruct (walk_ends succ s A) as (F & l & H). exists l, F. intros f Hf. replace f with (F + (f - F))%nat by lia.
  apply walk_mono; [exact H|discriminate].
Qed.
Lemma sorted_same : forall l l', StronglySorted Z.lt l -> StronglySorted Z.lt l' -> (forall x, In x l <-> In x l') -> l = l'.
Proof.
  induction l as [|a l IH]; intros [|b l'] S S' E; [reflexivity|destruct (proj2 (E b)); left; reflexivity|destruct (proj1 (E a)); left; reflexivity|].
  inversion S as [|? ? S1 F1]; inversion S' as [|? ? S2 F2]; subst. rewrite Forall_forall in F1, F2.
  assert (a = b).
  { destruct (proj1 (E a) (or_introl eq_refl)) as [->|Ha]; [reflexivity|]. destruct (proj2 (E b) (or_introl eq_refl)) as [->|Hb]; [reflexivity|].
    specialize (F1 _ Hb). specialize (F2 _ Ha). lia. }
  subst b. f_equal. apply IH; [exact S1|exact S2|]. intros x. split; intros Hx.
  - destruct (proj1 (E x) (or_intror Hx)) as [<-|?]; [specialize (F1 _ Hx); lia|assumption].
  - destruct (proj2 (E x) (or_intror Hx)) as [<-|?]; [specialize (F2 _ Hx); lia|assumption].
Qed.
Lemma unsigned_inj a b : sint32 a -> sint32 b -> to_unsigned 64 a = to_unsigned 64 b -> a = b.
Proof. unfold sint32, to_unsigned. cbn [Z.of_N]. change (2 ^ Z.pos 64)%Z with 18446744073709551616%Z. lia. Qed.
Lemma signed_back b : sint32 b -> to_signed 32 (Z.of_N (to_unsigned 64 b)) = b.
Proof.
  unfold sint32, to_signed, to_unsigned. intros H. change (2 ^ Z.of_N 64)%Z with 18446744073709551616%Z. change (2 ^ Z.of_N 32)%Z with 4294967296%Z.
  rewrite Z2N.id by lia. cbv zeta. destruct (Z.ltb_spec (2 * ((b mod 18446744073709551616) mod 4294967296)) 4294967296); lia.
Qed.
Lemma find_index_some b : forall l, sint32 b -> Forall sint32 l -> forall i, find_index (to_unsigned 64 b) l = Some i ->
  nth_error l i = Some b /\ ~ In b (firstn i l).
Proof.
  induction l as [|z l IH]; intros Hb F i H; cbn [find_index] in H; [discriminate|]. inversion F; subst.
  destruct (N.eqb_spec (to_unsigned 64 z) (to_unsigned 64 b)) as [E|E].
  - injection H as <-. apply unsigned_inj in E; [|assumption..]. subst z. split; [reflexivity|intros []].
  - destruct (find_index (to_unsigned 64 b) l) as [j|] eqn:Ej; [|discriminate]. injection H as <-. destruct (IH Hb ltac:(assumption) _ eq_refl) as (H1 & H4).
    cbn [nth_error firstn]. split; [exact H1|]. intros [->|D]; [contradiction|exact (H4 D)].
Qed.
Lemma find_index_none b : forall l, find_index (to_unsigned 64 b) l = None -> ~ In b l.
Proof.
  induction l as [|z l IH]; intros H; [intros []|]. cbn [find_index] in H. destruct (N.eqb_spec (to_unsigned 64 z) (to_unsigned 64 b)) as [E|E]; [discriminate|].
  destruct (find_index (to_unsigned 64 b) l); [discriminate|]. intros [->|D]; [contradiction|exact (IH eq_refl D)].
Qed.
Lemma at_geo_iff g c : at_geo g c = true <-> c_geo c = Some g.
Proof. apply same_geo_iff. Qed.
Lemma addresses_in c off : no_hole c -> is_virtual (c_offs c) = false -> forall a, In a (addresses c off) <-> exists o, used_offset c o /\ a = (o + off) mod 65536.
Proof.
  unfold no_hole, addresses, used_offset. destruct (c_offs c) as [[[x y] z] w]. cbn [is_virtual]. intros (H1 & H2 & H3) V a. unfold bit_resolution.
  destruct (N.eqb_spec x 0); [lia|]. rewrite in_map_iff.
  destruct (N.eqb_spec y 0); [|destruct (N.eqb_spec z 0); [|destruct (N.eqb_spec w 0)]]; cbn [N.leb N.compare Pos.compare Pos.compare_cont app In];
    (split; [intros (o & <- & D); exists o; split; [|reflexivity]; lia|intros (o & (D0 & D) & ->); exists o; split; [reflexivity|]; lia]).
Qed.
Lemma virtual_none c : is_virtual (c_offs c) = true -> forall o, ~ used_offset c o.
Proof. unfold used_offset, is_virtual. destruct (c_offs c) as [[[x y] z] w]. lia. Qed.
Lemma chan_addresses_in chans b off g : (forall c, In c chans -> no_hole c) -> forall a,
  In a (chan_addresses chans b off g) <-> exists c o, In c chans /\ used_offset c o /\ c_geo c = Some g /\ c_break c = b /\ a = (o + off) mod 65536.
Proof.
  intros Hn a. unfold chan_addresses. rewrite in_flat_map. split.
  - intros (c & Hc & H). destruct (at_geo g c) eqn:E1; [|destruct H]. destruct (Z.eqb_spec (c_break c) b); [|destruct H].
    destruct (is_virtual (c_offs c)) eqn:E2; [destruct H|]. cbn [andb negb] in H. apply addresses_in in H; [|apply Hn, Hc|exact E2].
    destruct H as (o & Ho & ->). exists c, o. apply at_geo_iff in E1. auto.
  - intros (c & o & Hc & Ho & Hg & Hb & ->). exists c. split; [exact Hc|]. apply at_geo_iff in Hg. rewrite Hg, Hb, Z.eqb_refl.
    destruct (is_virtual (c_offs c)) eqn:E2; [destruct (virtual_none c E2 o Ho)|]. cbn [andb negb]. apply addresses_in; [apply Hn, Hc|exact E2|]. exists o. auto.
Qed.
Lemma ref_channels_in chans tree c : In c (ref_channels chans tree) <-> In c chans /\ exists g, In g tree /\ c_geo c = Some g.
Proof.
  unfold ref_channels. rewrite in_flat_map. split.
  - intros (g & Hg & H). apply filter_In in H. destruct H as (Hc & E). apply at_geo_iff in E. split; [exact Hc|exists g; auto].
  - intros (Hc & g & Hg & E). exists g. split; [exact Hg|]. apply filter_In. split; [exact Hc|]. apply at_geo_iff, E.
Qed.
Lemma fold_ids_in : forall cs acc b, In b (fold_left (fun l c => if (c_break c =? 0)%Z then l else add_new (c_break c) l) cs acc) <->
  In b acc \/ b <> 0%Z /\ exists c, In c cs /\ c_break c = b.
Proof.
  induction cs as [|c cs IH]; intros acc b; cbn [fold_left].
  - split; [tauto|]. intros [H|(_ & ? & [] & _)]; exact H.
  - rewrite IH. destruct (Z.eqb_spec (c_break c) 0) as [E|E].
    + split; (intros [H|(H & c' & Hc & Eb)]; [auto|right; split; [exact H|]]); [exists c'; cbn; auto|].
      destruct Hc as [<-|Hc]; [congruence|exists c'; auto].
    + rewrite add_new_in. split.
      * intros [[->|H]|(H & c' & Hc & Eb)]; [right; split; [exact E|exists c; cbn; auto]|auto|right; split; [exact H|exists c'; cbn; auto]].
      * intros [H|(H & c' & [<-|Hc] & Eb)]; [auto|left; left; auto|right; split; [exact H|exists c'; auto]].
Qed.
Lemma fold_ids_nodup : forall cs acc, NoDup acc -> NoDup (fold_left (fun l c => if (c_break c =? 0)%Z then l else add_new (c_break c) l) cs acc).
Proof.
  induction cs as [|c cs IH]; intros acc D; cbn [fold_left]; [exact D|]. apply IH. destruct (c_break c =? 0)%Z; [exact D|]. apply add_new_nodup, D.
Qed.
Lemma ref_ids_sorted cs : StronglySorted Z.lt (ref_ids cs).
Proof. apply sort_sorted, fold_ids_nodup. constructor. Qed.
Lemma ref_ids_in cs b : In b (ref_ids cs) <-> b <> 0%Z /\ exists c, In c cs /\ c_break c = b.
Proof.
  unfold ref_ids. transitivity (In b (fold_left (fun l c => if (c_break c =? 0)%Z then l else add_new (c_break c) l) cs [])).
  { split; apply Permutation_in; [|symmetry]; apply sort_perm. }
  rewrite fold_ids_in. split; [intros [[]|H]; exact H|auto].
Qed.
Lemma has_overwrite_iff cs : has_overwrite cs = true <-> exists c, In c cs /\ c_break c = 0%Z.
Proof. unfold has_overwrite. rewrite existsb_exists. split; intros (c & Hc & E); exists c; (split; [exact Hc|]); apply Z.eqb_eq; exact E. Qed.
Lemma add_address_in : forall l acc a, In a (fold_left add_address l acc) <-> In a acc \/ In a l.
Proof.
  induction l as [|x l IH]; intros acc a; cbn [fold_left In]; [tauto|]. rewrite IH. unfold add_address.
  destruct (existsb (N.eqb x) acc) eqn:E.
  - apply existsb_exists in E. destruct E as (y & Hy & E). apply N.eqb_eq in E. subst y. intuition (subst; auto).
  - rewrite in_app_iff. cbn [In]. tauto.
Qed.
Lemma fold_max_ge : forall l m, m <= fold_left (fun m a => if m <? a then a else m) l m /\ forall a, In a l -> a <= fold_left (fun m a => if m <? a then a else m) l m.
Proof.
  induction l as [|x l IH]; intros m; cbn [fold_left In]; [split; [lia|intros ? []]|]. destruct (IH (if m <? x then x else m)) as (H1 & H2).
  assert (Hm : m <= (if m <? x then x else m) /\ x <= (if m <? x then x else m)) by (destruct (N.ltb_spec m x); lia).
  split; [lia|]. intros a [->|Ha]; [lia|exact (H2 a Ha)].
Qed.
Lemma fold_max_in : forall l m, fold_left (fun m a => if m <? a then a else m) l m = m \/ In (fold_left (fun m a => if m <? a then a else m) l m) l.
Proof.
  induction l as [|x l IH]; intros m; cbn [fold_left In]; [auto|]. destruct (IH (if m <? x then x else m)) as [E|E]; [|auto]. rewrite E. destruct (m <? x); auto.
Qed.
Lemma fold_min_le : forall l m, fold_left (fun m a => if a <? m then a else m) l m <= m /\ forall a, In a l -> fold_left (fun m a => if a <? m then a else m) l m <= a.
Proof.
  induction l as [|x l IH]; intros m; cbn [fold_left In]; [split; [lia|intros ? []]|]. destruct (IH (if x <? m then x else m)) as (H1 & H2).
  assert (Hm : (if x <? m then x else m) <= m /\ (if x <? m then x else m) <= x) by (destruct (N.ltb_spec x m); lia).
  split; [lia|]. intros a [->|Ha]; [lia|exact (H2 a Ha)].
Qed.
Lemma fold_min_in : forall l m, fold_left (fun m a => if a <? m then a else m) l m = m \/ In (fold_left (fun m a => if a <? m then a else m) l m) l.
Proof.
  induction l as [|x l IH]; intros m; cbn [fold_left In]; [auto|]. destruct (IH (if x <? m then x else m)) as [E|E]; [|auto]. rewrite E. destruct (x <? m); auto.
Qed.
Lemma span_ok l lo hi : In lo l -> In hi l -> (forall a, In a l -> lo <= a <= hi) -> 1 <= lo <= 512 -> hi < 65536 -> span l = hi - lo + 1.
Proof.
  intros Hl Hh B L H. unfold span. cbv zeta.
  destruct (fold_max_ge l 0) as (_ & M1). destruct (fold_min_le l 512) as (_ & M2).
  pose proof (fold_max_in l 0) as M3. pose proof (fold_min_in l 512) as M4.
  set (mx := fold_left (fun m a => if m <? a then a else m) l 0) in *. set (mn := fold_left (fun m a => if a <? m then a else m) l 512) in *.
  assert (mx = hi). { specialize (M1 _ Hh). destruct M3 as [E|E]; [lia|]. specialize (B _ E). lia. }
  assert (mn = lo). { specialize (M2 _ Hl). destruct M4 as [E|E]; [lia|]. specialize (B _ E). lia. }
  specialize (B _ Hl). unfold to_unsigned. change (2 ^ Z.of_N 16)%Z with 65536%Z. lia.
Qed.

Section Mode.
Variables (h : store) (root : option N) (chans : list chan).
Hypothesis T : tidy h root chans.
Lemma child_link a b : clos_refl_trans N (child h) a b -> clos_refl_trans N (child_or_link h) a b.
Proof. induction 1; [apply rt_step; left; assumption|apply rt_refl|eapply rt_trans; eassumption]. Qed.
Lemma ends_reach (R : N -> N -> Prop) a b : clos_refl_trans N R a b -> ends_below R a -> ends_below R b.
Proof. intros H. apply clos_rt_rt1n in H. induction H as [|x y z S _ IH]; [auto|]. intros A. apply IH. inversion A as [B]. apply B, S. Qed.
Lemma ends_child g : ends_below (child_or_link h) g -> ends_below (fun x y => In y (kids h x)) g.
Proof. intros A. induction A as [g _ IH]. constructor. intros y Hy. apply IH. left. exact Hy. Qed.
Lemma tree_mode g r : in_tree h root g -> g_ref (h g) = Some r -> in_mode h root r.
Proof. intros (g0 & E & H) Hr. exists g0, g. split; [exact E|]. split; [apply child_link, H|exact Hr]. Qed.
Lemma link_ends g r l : in_tree h root g -> g_ref (h g) = Some r -> r_link r = Some l -> ends_below (fun x y => In y (kids h x)) l.
Proof.
  intros (g0 & E & H) Hr Hl. apply ends_child. apply (ends_reach _ g0).
  - eapply rt_trans; [apply child_link, H|]. apply rt_step. right. exists r. auto.
  - apply (td_ends _ _ _ T), E.
Qed.
Lemma kids_tree_in f s l : walk (kids h) f s = Ok l -> forall g, In g l <-> exists s0, In s0 s /\ clos_refl_trans N (child h) s0 g.
Proof.
  intros H g. rewrite (walk_in _ _ _ _ H). assert (E : forall x y, In y (kids h x) <-> child h x y) by (intros; reflexivity).
  split; intros (s0 & Hs & Hr); exists s0; (split; [exact Hs|]); apply (reach_rt (kids h) (child h) s0 g E); exact Hr.
Qed.
Lemma no_holes c : In c chans -> no_hole c. Proof. intros Hc. apply (td_chans _ _ _ T), Hc. Qed.

Variable b : Z.
Hypothesis Hb : sint32 b.
Hypothesis Hb0 : b <> 0%Z.
(** A part of the addresses of a reference. *)
Lemma ref_part_ok g r bb adr : in_tree h root g -> g_ref (h g) = Some r -> (exists l, r_link r = Some l) -> 1 <= adr < 65536 ->
  exists l, ev (fun f => ref_part f h chans bb (ref_offset adr) (r_link r) = Ok l) /\
    forall a, In a l <-> exists c o g', In c chans /\ used_offset c o /\ in_ref h r g' /\ c_geo c = Some g' /\ c_break c = bb /\ a = (o + (adr - 1)) mod 65536.
Proof.
  intros Ht Hr (lk & El) Ha. destruct (walk_ev (kids h) [lk]) as (tree & Hw). { constructor; [|constructor]. eapply link_ends; eassumption. }
  assert (W : forall g', In g' tree <-> in_ref h r g').
  { destruct Hw as (F & Hw). specialize (Hw F (Nat.le_refl _)). intros g'. rewrite (kids_tree_in _ _ _ Hw). unfold in_ref. split.
    - intros (s0 & [<-|[]] & H). exists lk. auto.
    - intros (l & E & H). assert (l = lk) by congruence. subst l. exists lk. split; [left; reflexivity|exact H]. }
  assert (O : ref_offset adr = adr - 1) by (unfold ref_offset, to_unsigned; change (2 ^ Z.of_N 16)%Z with 65536%Z; lia).
  exists (flat_map (chan_addresses chans bb (ref_offset adr)) tree). split.
  - eapply ev_impl; [|exact Hw]. intros f Hf. unfold ref_part. rewrite El, Hf. reflexivity.
  - intros a. rewrite in_flat_map, O. split.
    + intros (g' & Hg & H). apply chan_addresses_in in H; [|exact no_holes]. destruct H as (c & o & H). exists c, o, g'. rewrite <- W. tauto.
    + intros (c & o & g' & Hc & Ho & Hi & Hg & Hbb & ->). exists g'. split; [apply W, Hi|]. apply chan_addresses_in; [exact no_holes|]. exists c, o. auto.
Qed.
Lemma gives_unique r a a' : gives r b a -> gives r b a' -> a = a'.
Proof.
  intros (p & q & E & Hn) (p' & q' & E' & Hn'). rewrite E in E'. clear E. revert p' E' Hn'. induction p as [|x p IH]; intros [|x' p'] E' Hn'.
  - cbn in E'. congruence.
  - injection E' as <- _. destruct Hn'. left. reflexivity.
  - injection E' as -> _. destruct Hn. left. reflexivity.
  - injection E' as <- E'. apply (IH ltac:(intros D; apply Hn; right; exact D) p' E'). intros D. apply Hn'. right. exact D.
Qed.
(** What one reference contributes, before looking at the size. *)
Definition ref_uses (r : gref) (a : N) : Prop :=
  exists c o g' adr, In c chans /\ used_offset c o /\ in_ref h r g' /\ c_geo c = Some g' /\ a = (o + (adr - 1)) mod 65536 /\
    (c_break c = b /\ gives r b adr \/ c_break c = 0%Z /\ is_last (b, adr) (r_breaks r)).
Lemma ref_ok g r : in_tree h root g -> g_ref (h g) = Some r ->
  exists l, ev (fun f => ref_addresses f h chans (to_unsigned 64 b) r = Ok l) /\ forall a, In a l <-> ref_uses r a.
Proof.
  intros Ht Hr. pose proof (tree_mode _ _ Ht Hr) as Hm. destruct (td_order _ _ _ T g r Ht Hr) as (ids & rest & Ef & Si & Hids).
  destruct (walk_ev (kids h) (link_list (r_link r))) as (tree & Hw).
  { destruct (r_link r) as [l|] eqn:El; [|constructor]. constructor; [|constructor]. eapply link_ends; eassumption. }
  assert (W : forall g', In g' tree <-> in_ref h r g').
  { destruct Hw as (F & Hw). specialize (Hw F (Nat.le_refl _)). intros g'. rewrite (kids_tree_in _ _ _ Hw). unfold in_ref. split.
    - intros (s0 & Hs & H). destruct (r_link r) as [l|]; [|destruct Hs]. destruct Hs as [<-|[]]. exists l. auto.
    - intros (l & E & H). rewrite E. exists l. split; [left; reflexivity|exact H]. }
  set (cs := ref_channels chans tree).
  assert (Eids : ref_ids cs = ids).
  { apply sorted_same; [apply ref_ids_sorted|exact Si|]. intros x. rewrite ref_ids_in, Hids. apply and_iff_compat_l. unfold cs. split.
    - intros (c & Hc & E). apply ref_channels_in in Hc. destruct Hc as (Hc & g' & Hg & Eg). exists c, g'. rewrite <- W. auto.
    - intros (c & g' & Hc & Eg & Hi & E). exists c. split; [|exact E]. apply ref_channels_in. split; [exact Hc|]. exists g'. rewrite W. auto. }
  assert (Fids : Forall sint32 ids).
  { apply Forall_forall. intros x Hx. apply Hids in Hx. destruct Hx as (_ & c & g' & Hc & _ & _ & <-). apply (td_chans _ _ _ T), Hc. }
  assert (Ov : has_overwrite cs = true <-> exists c g', In c chans /\ c_geo c = Some g' /\ in_ref h r g' /\ c_break c = 0%Z).
  { rewrite has_overwrite_iff. unfold cs. split.
    - intros (c & Hc & E). apply ref_channels_in in Hc. destruct Hc as (Hc & g' & Hg & Eg). exists c, g'. rewrite <- W. auto.
    - intros (c & g' & Hc & Eg & Hi & E). exists c. split; [|exact E]. apply ref_channels_in. split; [exact Hc|]. exists g'. rewrite W. auto. }
  (* the channels of the break itself *)
  assert (P1 : exists l1, ev (fun f => match find_index (to_unsigned 64 b) (ref_ids cs) with
      | None => Ok []
      | Some i => match nth_error (r_breaks r) i with None => UB | Some brk => ref_part f h chans b (ref_offset (snd brk)) (r_link r) end
      end = Ok l1) /\ forall a, In a l1 <-> exists c o g' adr, In c chans /\ used_offset c o /\ in_ref h r g' /\ c_geo c = Some g' /\ a = (o + (adr - 1)) mod 65536 /\ c_break c = b /\ gives r b adr).
  { rewrite Eids. destruct (find_index (to_unsigned 64 b) ids) as [i|] eqn:Ei.
    - apply find_index_some in Ei; [|assumption..]. destruct Ei as (Ei & Hf).
      assert (Ei' : nth_error (map fst (r_breaks r)) i = Some b) by (rewrite Ef, nth_error_app1; [exact Ei|apply nth_error_Some; congruence]).
      rewrite nth_error_map in Ei'. destruct (nth_error (r_breaks r) i) as [[b' adr]|] eqn:En; [|discriminate]. cbn in Ei'. injection Ei' as ->.
      assert (G : gives r b adr).
      { destruct (nth_error_split _ _ En) as (p & q & Ep & Lp). exists p, q. split; [exact Ep|]. intros D. apply Hf.
        assert (Ef' : map fst p = firstn i ids).
        { assert (K : firstn i (map fst (r_breaks r)) = firstn i (ids ++ rest)) by (rewrite Ef; reflexivity).
          rewrite Ep, map_app in K. assert (Lm : List.length (map fst p) = i) by (rewrite map_length; exact Lp).
          rewrite firstn_app in K. rewrite Lm, Nat.sub_diag in K. rewrite (firstn_all2 (map fst p)) in K by (rewrite Lm; apply Nat.le_refl).
          cbn [firstn] in K. rewrite app_nil_r in K. rewrite K. rewrite firstn_app.
          assert (Li : (i < List.length ids)%nat) by (apply nth_error_Some; congruence). replace (i - List.length ids)%nat with O by lia. cbn [firstn]. apply app_nil_r. }
        rewrite <- Ef'. exact D. }
      assert (Hi : In b ids) by (eapply nth_error_In; exact Ei). apply Hids in Hi. destruct Hi as (_ & c0 & g0 & _ & _ & (lk & El & _) & _).
      destruct (ref_part_ok g r b adr Ht Hr (ex_intro _ lk El)) as (l1 & E1 & I1). { apply (td_address _ _ _ T r b); [exact Hm|]. eapply nth_error_In; exact En. }
      exists l1. split; [exact E1|]. intros a. rewrite I1. split.
      + intros (c & o & g' & H). exists c, o, g', adr. tauto.
      + intros (c & o & g' & adr' & Hc & Ho & Hi & Hg & Ha & Hcb & Hgv). exists c, o, g'. rewrite (gives_unique r adr adr' G Hgv). tauto.
    - apply find_index_none in Ei. exists []. split; [exists O; reflexivity|]. intros a. split; [intros []|].
      intros (c & o & g' & adr & Hc & Ho & Hi & Hg & Ha & Hcb & Hgv). apply Ei, Hids. split; [exact Hb0|]. exists c, g'. auto. }
  assert (P2 : exists l2, ev (fun f => (if has_overwrite cs then
      do brk <- back (r_breaks r); if (fst brk =? b)%Z then ref_part f h chans 0 (ref_offset (snd brk)) (r_link r) else Ok [] else Ok []) = Ok l2) /\
      forall a, In a l2 <-> exists c o g' adr, In c chans /\ used_offset c o /\ in_ref h r g' /\ c_geo c = Some g' /\ a = (o + (adr - 1)) mod 65536 /\ c_break c = 0%Z /\ is_last (b, adr) (r_breaks r)).
  { destruct (has_overwrite cs) eqn:Eo.
    - destruct (back_cases (r_breaks r)) as [(E0 & _)|([b' adr] & Eb)]; [destruct (td_breaks _ _ _ T r Hm E0)|]. rewrite Eb. cbn [bind fst snd].
      apply back_ok in Eb. assert (Hin : In (b', adr) (r_breaks r)) by (destruct Eb as (l0 & ->); apply in_or_app; right; left; reflexivity).
      destruct (Z.eqb_spec b' b) as [->|Hd].
      + destruct (proj1 Ov eq_refl) as (c0 & g0 & _ & _ & (lk & El & _) & _).
        destruct (ref_part_ok g r 0%Z adr Ht Hr (ex_intro _ lk El)) as (l1 & E1 & I1). { apply (td_address _ _ _ T r b); [exact Hm|exact Hin]. }
        exists l1. split; [exact E1|]. intros a. rewrite I1. split.
        * intros (c & o & g' & H). exists c, o, g', adr. tauto.
        * intros (c & o & g' & adr' & Hc & Ho & Hi & Hg & Ha & Hcb & (l0 & El0)). destruct Eb as (l1' & Eb). rewrite Eb in El0. apply app_inj_tail in El0. destruct El0 as (_ & [= <-]).
          exists c, o, g'. tauto.
      + exists []. split; [exists O; reflexivity|]. intros a. split; [intros []|]. intros (c & o & g' & adr' & _ & _ & _ & _ & _ & _ & (l0 & El0)).
        destruct Eb as (l1' & Eb). rewrite Eb in El0. apply app_inj_tail in El0. destruct El0 as (_ & [= ? ?]). congruence.
    - exists []. split; [exists O; reflexivity|]. intros a. split; [intros []|]. intros (c & o & g' & adr & Hc & _ & Hi & Hg & _ & Hz & _).
      assert (false = true) by (apply Ov; exists c, g'; auto). discriminate. }
  destruct P1 as (l1 & E1 & I1), P2 as (l2 & E2 & I2). exists (l1 ++ l2). split.
  - eapply ev_impl; [|exact (ev_and _ _ Hw (ev_and _ _ E1 E2))]. cbv beta. intros f (F0 & F1 & F2). unfold ref_addresses. cbv zeta. rewrite F0. cbn [bind]. fold cs.
    rewrite signed_back by exact Hb. rewrite F1. cbn [bind]. rewrite F2. reflexivity.
  - intros a. rewrite in_app_iff, I1, I2. unfold ref_uses. split.
    + intros [(c & o & g' & adr & H)|(c & o & g' & adr & H)]; exists c, o, g', adr; tauto.
    + intros (c & o & g' & adr & H1 & H2 & H3 & H4 & H5 & [H6|H6]); [left|right]; exists c, o, g', adr; tauto.
Qed.
Variable hi : N.
Hypothesis Hhi : hi < 65536.
Hypothesis Hup : forall a, uses_address h root chans b a -> a <= hi.
Lemma geo_ok g : in_tree h root g ->
  exists l, ev (fun f => geo_addresses f h chans (to_unsigned 64 b) g = Ok l) /\ forall a, In a l <-> uses_at h chans b g a.
Proof.
  intros Ht. assert (Up : forall a, uses_at h chans b g a -> a < 65536) by (intros a Ha; specialize (Hup a (ex_intro _ g (conj Ht Ha))); lia).
  assert (Own : forall a, In a (chan_addresses chans b 0 g) <-> exists c o, In c chans /\ used_offset c o /\ c_geo c = Some g /\ c_break c = b /\ a = o).
  { intros a. rewrite chan_addresses_in by exact no_holes. split; intros (c & o & Hc & Ho & Hg & Hcb & Ha); exists c, o; repeat split; try assumption;
      (assert (o < 65536) by (apply Up; exists c, o; split; [exact Hc|]; split; [exact Ho|]; left; auto)); lia. }
  unfold geo_addresses. cbv zeta. rewrite signed_back by exact Hb. destruct (g_ref (h g)) as [r|] eqn:Er.
  - destruct (ref_ok g r Ht Er) as (l & El & Il). exists (chan_addresses chans b 0 g ++ l). split.
    { eapply ev_impl; [|exact El]. intros f Hf. rewrite Hf. reflexivity. }
    assert (Adr : forall adr, gives r b adr \/ is_last (b, adr) (r_breaks r) -> 1 <= adr < 65536).
    { intros adr D. apply (td_address _ _ _ T r b); [exact (tree_mode _ _ Ht Er)|]. destruct D as [(p & q & -> & _)|(p & ->)]; apply in_or_app; right; left; reflexivity. }
    intros a. rewrite in_app_iff, Own, Il. unfold ref_uses. split.
    + intros [(c & o & Hc & Ho & D)|(c & o & g' & adr & Hc & Ho & Hi & Hg & Ha & D)]; [exists c, o; auto|].
      assert (1 <= adr < 65536) by (apply Adr; tauto). exists c, o. split; [exact Hc|]. split; [exact Ho|]. right. exists r, g', adr. repeat split; try assumption.
      assert (o + adr - 1 < 65536). { apply Up. exists c, o. split; [exact Hc|]. split; [exact Ho|]. right. exists r, g', adr. repeat split; try assumption. lia. } lia.
    + intros (c & o & Hc & Ho & [D|(r' & g' & adr & Er' & Hi & Hg & Ha & D)]); [left; exists c, o; auto|]. assert (r' = r) by congruence. subst r'. right.
      assert (1 <= adr < 65536) by (apply Adr; tauto). exists c, o, g', adr. repeat split; try assumption.
      assert (a < 65536). { apply Up. exists c, o. split; [exact Hc|]. split; [exact Ho|]. right. exists r, g', adr. repeat split; assumption. } lia.
  - exists (chan_addresses chans b 0 g). split; [exists O; reflexivity|]. intros a. rewrite Own. unfold uses_at. split.
    + intros (c & o & Hc & Ho & D). exists c, o. auto.
    + intros (c & o & Hc & Ho & [D|(r & g' & adr & E & _)]); [exists c, o; auto|congruence].
Qed.
Lemma all_ok : forall geos acc, (forall g, In g geos -> in_tree h root g) ->
  exists l, ev (fun f => all_addresses f h chans (to_unsigned 64 b) geos acc = Ok l) /\
    forall a, In a l <-> In a acc \/ exists g, In g geos /\ uses_at h chans b g a.
Proof.
  induction geos as [|g geos IH]; intros acc Ht.
  - exists acc. split; [exists O; reflexivity|]. intros a. split; [tauto|]. intros [H|(? & [] & _)]; exact H.
  - destruct (geo_ok g (Ht g (or_introl eq_refl))) as (l & El & Il).
    destruct (IH (fold_left add_address l acc)) as (l' & El' & Il'). { intros g' Hg. apply Ht. right. exact Hg. }
    exists l'. split.
    + eapply ev_impl; [|exact (ev_and _ _ El El')]. cbv beta. intros f (F1 & F2). cbn [all_addresses]. rewrite F1. cbn [bind]. exact F2.
    + intros a. rewrite Il', add_address_in, Il. split.
      * intros [[H|H]|(g' & Hg & H)]; [auto|right; exists g; cbn; auto|right; exists g'; cbn; auto].
      * intros [H|(g' & [<-|Hg] & H)]; [auto|auto|right; exists g'; auto].
Qed.
End Mode.

(** ** C49 *)
(** In a tidy mode the footprint is the number of addresses from the lowest to the highest one used in
    the break, if one is at most 512 and all fit into 16 bits. *)
Theorem C49_span_partial : forall h root chans b lo hi, tidy h root chans -> sint32 b -> b <> 0%Z ->
  uses_address h root chans b lo -> uses_address h root chans b hi -> (forall a, uses_address h root chans b a -> lo <= a <= hi) ->
  lo <= 512 -> hi < 65536 ->
  exists fuel, forall f, (fuel <= f)%nat -> footprint f h root chans (to_unsigned 64 b) = Ok (hi - lo + 1).
Proof.
  intros h root chans b lo hi T Hb Hb0 Hlo Hhi B L H. change (ev (fun f => footprint f h root chans (to_unsigned 64 b) = Ok (hi - lo + 1))).
  destruct Hlo as (g1 & (g0 & Eroot & Ht1) & Hu1) eqn:Elo. clear Elo.
  pose proof (td_ends _ _ _ T g0 Eroot) as A.
  (* the break list *)
  destruct (walk_ev (kids_links h) (link_list root)) as (geos & Hw).
  { rewrite Eroot. constructor; [|constructor]. eapply ends_ext; [|exact A]. intros x y. symmetry. apply kids_links_in. }
  assert (Hba : exists l, ev (fun f => break_array f h root chans = Ok l)).
  { destruct (add_channels_ub (refs_of h geos) chans []) as [(bs & Ebs)|(_ & c & r & _ & _ & Hr & _ & E0)].
    - exists (sort_z bs). eapply ev_impl; [|exact Hw]. intros f Hf. unfold break_array. rewrite Hf. cbn [bind]. rewrite Ebs. reflexivity.
    - destruct Hw as (F & Hw). specialize (Hw F (Nat.le_refl _)). destruct (td_breaks _ _ _ T r); [|exact E0]. apply (walk_refs _ _ _ _ Hw), Hr. }
  destruct Hba as (bl & Hba).
  assert (Hin : In b bl).
  { destruct Hba as (F & Hba). specialize (Hba F (Nat.le_refl _)). apply (C50_contents _ _ _ _ _ Hba).
    destruct Hu1 as (c & o & Hc & _ & [(_ & Hcb & _)|(r & g' & adr & Er & Hi & Hg & _ & [(Hcb & _)|(Hz & Hl)])]); [exists c; split; [exact Hc|left; split; congruence]..|].
    exists c. split; [exact Hc|]. right. split; [exact Hz|]. exists r, adr.
    assert (Hm : in_mode h root r) by (apply (tree_mode h root g1 r); [exists g0; auto|exact Er]).
    split; [exact Hm|]. split; [|exact Hl]. destruct (td_direct _ _ _ T c Hc Hz) as (g'' & Eg & Hd). assert (g'' = g') by congruence. subst g''. rewrite Eg. apply Hd; assumption. }
  destruct (walk_ev (kids h) (link_list root)) as (tree & Htr). { rewrite Eroot. constructor; [|constructor]. apply ends_child, A. }
  assert (W : forall g, In g tree <-> in_tree h root g).
  { destruct Htr as (F & Htr). specialize (Htr F (Nat.le_refl _)). intros g. rewrite (kids_tree_in h F _ _ Htr). unfold in_tree. rewrite Eroot. split.
    - intros (s0 & [<-|[]] & D). exists g0. auto.
    - intros (s0 & [= <-] & D). exists g0. split; [left; reflexivity|exact D]. }
  destruct (all_ok h root chans T b Hb Hb0 hi H ltac:(intros a Ha; apply B, Ha) tree []) as (l & El & Il). { intros g Hg. apply W, Hg. }
  assert (I : forall a, In a l <-> uses_address h root chans b a).
  { intros a. rewrite Il. unfold uses_address. split; [intros [[]|(g & Hg & D)]; exists g; rewrite <- W; auto|]. intros (g & Hg & D). right. exists g. rewrite W. auto. }
  eapply ev_impl; [|exact (ev_and _ _ Hba (ev_and _ _ Htr El))]. cbv beta. intros f (F1 & F2 & F3). unfold footprint. rewrite F1. cbn [bind].
  destruct (find_index (to_unsigned 64 b) bl) eqn:Ef; [|apply find_index_none in Ef; contradiction]. rewrite F2. cbn [bind]. rewrite F3. cbn [bind]. f_equal.
  apply span_ok; [apply I; exists g1; split; [exists g0; auto|exact Hu1]|apply I, Hhi|intros a Ha; apply B, I, Ha| |exact H].
  split; [|exact L]. destruct Hu1 as (c & o & _ & Ho & D). assert (o <> 0) by (unfold used_offset in Ho; destruct (c_offs c) as [[[x y] z] w]; apply Ho).
  destruct D as [(_ & _ & ->)|(r & g' & adr & Er & _ & _ & Ea & D)]; [lia|].
  assert (1 <= adr); [|lia]. apply (td_address _ _ _ T r b); [apply (tree_mode h root g1 r); [exists g0; auto|exact Er]|].
  destruct D as [(_ & (p & q & -> & _))|(_ & (p & ->))]; apply in_or_app; right; left; reflexivity.
Qed.
(** A break that is not in the break list has the footprint 0. *)
Theorem C49_unlisted : forall fuel h root chans b l, sint32 b -> break_array fuel h root chans = Ok l -> Forall sint32 l -> ~ In b l ->
  footprint fuel h root chans (to_unsigned 64 b) = Ok 0.
Proof.
  intros fuel h root chans b l Hb H F Hn. unfold footprint. rewrite H. cbn [bind].
  destruct (find_index (to_unsigned 64 b) l) as [i|] eqn:E; [|reflexivity]. apply find_index_some in E; [|assumption..].
  destruct Hn. eapply nth_error_In. apply E.
Qed.

(** ** Cases *)
Lemma two_refs_ref r g : r_link r = Some 3 -> (in_ref two_refs r g <-> g = 3 \/ g = 4).
Proof.
  intros E. split.
  - intros (l & E' & H). assert (l = 3) by congruence. subst l. apply clos_rt_rtn1 in H. induction H as [|y z Hs _ IH]; [auto|].
    destruct IH as [->| ->]; cbn in Hs; [destruct Hs as [<-|[]]; auto|destruct Hs].
  - intros [->| ->]; exists 3; (split; [exact E|]); [apply rt_refl|apply rt_step; left; reflexivity].
Qed.
Lemma two_refs_leaf g : g <> 0 -> g <> 1 -> g <> 2 -> g <> 3 -> two_refs g = mkGeo [] None.
Proof. intros. destruct g as [|[[p|p|]|[p|p|]|]]; try contradiction; reflexivity. Qed.
Lemma two_refs_ends g : ends_below (child_or_link two_refs) g.
Proof.
  assert (L : forall g, g <> 0 -> g <> 1 -> g <> 2 -> g <> 3 -> ends_below (child_or_link two_refs) g).
  { intros x H0 H1 H2 H3. constructor. intros y Hy. exfalso. unfold child_or_link in Hy. rewrite two_refs_leaf in Hy by assumption.
    destruct Hy as [[]|(r & [=] & _)]. }
  assert (A3 : ends_below (child_or_link two_refs) 3). { constructor. intros y [[<-|[]]|(r & [=] & _)]. apply L; discriminate. }
  assert (A1 : ends_below (child_or_link two_refs) 1). { constructor. intros y [[]|(r & [= <-] & [= <-])]. exact A3. }
  assert (A2 : ends_below (child_or_link two_refs) 2). { constructor. intros y [[]|(r & [= <-] & [= <-])]. exact A3. }
  destruct (N.eq_dec g 0) as [->|]; [constructor; intros y [[<-|[<-|[]]]|(r & [=] & _)]; assumption|].
  destruct (N.eq_dec g 1) as [->|]; [exact A1|]. destruct (N.eq_dec g 2) as [->|]; [exact A2|]. destruct (N.eq_dec g 3) as [->|]; [exact A3|]. apply L; assumption.
Qed.
Lemma two_refs_breaks g r : g_ref (two_refs g) = Some r -> r = mkRef (Some 3) [(1%Z, 1); (2%Z, 1)] \/ r = mkRef (Some 3) [(1%Z, 11); (3%Z, 1)].
Proof. destruct g as [|[[p|p|]|[p|p|]|]]; cbn; intros [= <-]; auto. Qed.
Lemma two_refs_tidy : tidy two_refs (Some 0) two_chans.
Proof.
  constructor.
  - intros g _. apply two_refs_ends.
  - apply C50_case.
  - intros r (g0 & g & _ & _ & E). apply two_refs_breaks in E. destruct E as [->| ->]; discriminate.
  - intros g r _ E. apply two_refs_breaks in E.
    assert (Q : r_link r = Some 3 -> forall b, In b [1%Z] <-> b <> 0%Z /\ exists c g, In c two_chans /\ c_geo c = Some g /\ in_ref two_refs r g /\ c_break c = b).
    { intros El b. split.
      - intros [<-|[]]. split; [discriminate|]. exists (mkChan (Some 3) 1 (1, 2, 0, 0)), 3. rewrite (two_refs_ref r 3 El). cbn. auto.
      - intros (Hb & c & g' & Hc & Eg & Hi & Eb). apply (two_refs_ref r g' El) in Hi. destruct Hc as [<-|[<-|[<-|[]]]]; cbn in Eg, Eb; subst b; [left; reflexivity|contradiction|].
        injection Eg as <-. destruct Hi; discriminate. }
    destruct E as [->| ->]; [exists [1%Z], [2%Z]|exists [1%Z], [3%Z]]; (split; [reflexivity|]; split; [repeat constructor|apply Q; reflexivity]).
  - intros g r g' _ E Hi. apply two_refs_breaks in E. assert (El : r_link r = Some 3) by (destruct E as [->| ->]; reflexivity).
    apply (two_refs_ref r g' El) in Hi. destruct Hi as [->| ->]; reflexivity.
  - intros r b a (g0 & g & _ & _ & E) Hi. apply two_refs_breaks in E. destruct E as [->| ->]; (destruct Hi as [[= <- <-]|[[= <- <-]|[]]]; lia).
  - intros c Hc. destruct Hc as [<-|[<-|[<-|[]]]]; (split; [cbn; lia|unfold sint32; cbn; lia]).
Qed.
(** Break 1 of the mode of C50: addresses 1, 2 and 11, 12. *)
Example C49_case : tidy two_refs (Some 0) two_chans /\ uses_address two_refs (Some 0) two_chans 1 1 /\ uses_address two_refs (Some 0) two_chans 1 12
  /\ footprint 10 two_refs (Some 0) two_chans (to_unsigned 64 1) = Ok 12 /\ footprint 10 two_refs (Some 0) two_chans 3 = Ok 1 /\ footprint 10 two_refs (Some 0) two_chans 4 = Ok 0.
Proof.
  split; [apply two_refs_tidy|]. split; [|split; [|vm_compute; auto]].
  - exists 1. split; [exists 0; split; [reflexivity|apply rt_step; left; reflexivity]|].
    exists (mkChan (Some 3) 1 (1, 2, 0, 0)), 1. split; [left; reflexivity|]. split; [cbn; lia|]. right.
    exists (mkRef (Some 3) [(1%Z, 1); (2%Z, 1)]), 3, 1. split; [reflexivity|]. split; [exists 3; split; [reflexivity|apply rt_refl]|].
    split; [reflexivity|]. split; [reflexivity|]. left. split; [reflexivity|]. exists [], [(2%Z, 1)]. split; [reflexivity|intros []].
  - exists 2. split; [exists 0; split; [reflexivity|apply rt_step; right; left; reflexivity]|].
    exists (mkChan (Some 3) 1 (1, 2, 0, 0)), 2. split; [left; reflexivity|]. split; [cbn; lia|]. right.
    exists (mkRef (Some 3) [(1%Z, 11); (3%Z, 1)]), 3, 11. split; [reflexivity|]. split; [exists 3; split; [reflexivity|apply rt_refl]|].
    split; [reflexivity|]. split; [reflexivity|]. left. split; [reflexivity|]. exists [], [(3%Z, 1)]. split; [reflexivity|intros []].
Qed.
Definition one_geo : store := fun _ => mkGeo [] None.
(** Only a virtual channel: no address is used, the footprint is 65025. *)
Theorem C49_virtual_refuted : exists h root chans b, (forall a, ~ uses_address h root chans b a) /\
  footprint 10 h root chans (to_unsigned 64 b) = Ok 65025.
Proof.
  exists one_geo, (Some 0), [mkChan (Some 0) 1 (0, 0, 0, 0)], 1%Z. split; [|vm_compute; reflexivity].
  intros a (g & _ & c & o & [<-|[]] & Ho & _). cbn in Ho. lia.
Qed.
(** One channel with one byte at address 600. *)
Theorem C49_high_refuted : exists h root chans b, (forall a, uses_address h root chans b a <-> a = 600) /\
  footprint 10 h root chans (to_unsigned 64 b) = Ok 89.
Proof.
  exists one_geo, (Some 0), [mkChan (Some 0) 1 (600, 0, 0, 0)], 1%Z. split; [|vm_compute; reflexivity]. intros a. split.
  - intros (g & _ & c & o & [<-|[]] & Ho & [(_ & _ & ->)|(r & g' & adr & [=] & _)]). cbn in Ho. lia.
  - intros ->. exists 0. split; [exists 0; split; [reflexivity|apply rt_refl]|]. exists (mkChan (Some 0) 1 (600, 0, 0, 0)), 600. split; [left; reflexivity|].
    split; [cbn; lia|]. left. auto.
Qed.
(** A reference whose breaks are listed in another order: address 11 is used, but 5 is reported as the
    footprint of the addresses 5 and 11. *)
Definition swapped : store := fun g =>
  match g with 0 => mkGeo [1] None | 1 => mkGeo [] (Some (mkRef (Some 3) [(2%Z, 1); (1%Z, 11)])) | _ => mkGeo [] None end.
Definition swapped_chans : list chan := [mkChan (Some 0) 1 (5, 0, 0, 0); mkChan (Some 3) 1 (1, 0, 0, 0); mkChan (Some 3) 2 (1, 0, 0, 0)].
Theorem C49_order_refuted : exists h root chans, uses_address h root chans 1 5 /\ uses_address h root chans 1 11 /\
  footprint 10 h root chans 1 = Ok 5.
Proof.
  exists swapped, (Some 0), swapped_chans. split; [|split; [|vm_compute; reflexivity]].
  - exists 0. split; [exists 0; split; [reflexivity|apply rt_refl]|]. exists (mkChan (Some 0) 1 (5, 0, 0, 0)), 5. split; [left; reflexivity|]. split; [cbn; lia|]. left. auto.
  - exists 1. split; [exists 0; split; [reflexivity|apply rt_step; left; reflexivity]|].
    exists (mkChan (Some 3) 1 (1, 0, 0, 0)), 1. split; [right; left; reflexivity|]. split; [cbn; lia|]. right.
    exists (mkRef (Some 3) [(2%Z, 1); (1%Z, 11)]), 3, 11. split; [reflexivity|]. split; [exists 3; split; [reflexivity|apply rt_refl]|].
    split; [reflexivity|]. split; [reflexivity|]. left. split; [reflexivity|]. exists [(2%Z, 1)], []. split; [reflexivity|]. intros [D|[]]. discriminate D.
Qed.
(** A reference that lists fewer breaks than its channels use: read out of bounds. *)
Definition short : store := fun g =>
  match g with 0 => mkGeo [1] None | 1 => mkGeo [] (Some (mkRef (Some 3) [(1%Z, 1)])) | _ => mkGeo [] None end.
Theorem C49_short_refuted : exists h root chans b, break_array 10 h root chans = Ok [1; 2]%Z /\ footprint 10 h root chans b = UB.
Proof.
  exists short, (Some 0), [mkChan (Some 3) 1 (1, 0, 0, 0); mkChan (Some 3) 2 (1, 0, 0, 0)], 2. split; vm_compute; reflexivity.
Qed.
(** References inside referenced geometries are followed for the break list but not for the footprint. *)
Definition nested : store := fun g =>
  match g with
  | 0 => mkGeo [1] None
  | 1 => mkGeo [] (Some (mkRef (Some 3) [(1%Z, 1)]))
  | 3 => mkGeo [4] None
  | 4 => mkGeo [] (Some (mkRef (Some 5) [(1%Z, 1)]))
  | _ => mkGeo [] None
  end.
Theorem C49_nested_refuted : exists h root chans r, in_mode h root r /\ in_ref h r 5 /\ chans = [mkChan (Some 5) 1 (1, 0, 0, 0)] /\
  break_array 10 h root chans = Ok [1%Z] /\ footprint 10 h root chans 1 = Ok 65025.
Proof.
  exists nested, (Some 0), [mkChan (Some 5) 1 (1, 0, 0, 0)], (mkRef (Some 5) [(1%Z, 1)]).
  split.
  - exists 0, 4. split; [reflexivity|]. split; [|reflexivity].
    apply rt_trans with 1; [apply rt_step; left; left; reflexivity|]. apply rt_trans with 3; [apply rt_step; right; exists (mkRef (Some 3) [(1%Z, 1)]); split; reflexivity|apply rt_step; left; left; reflexivity].
  - split; [exists 5; split; [reflexivity|apply rt_refl]|]. split; [reflexivity|]. split; vm_compute; reflexivity.
Qed.
Print Assumptions C49_span_partial.
Print Assumptions C49_unlisted.
Print Assumptions C49_virtual_refuted.
Print Assumptions C49_high_refuted.
Print Assumptions C49_order_refuted.
Print Assumptions C49_short_refuted.
Print Assumptions C49_nested_refuted.
