(** C46, C47, C51: channel resolution, channel functions, reading of channel sets. *)
From Coq Require Import String List NArith ZArith Lia Bool Sorted.
From Coq Require Import ZifyN ZifyNat ZifyBool.
From Verif Require Import Bytes Txt UtfModel StringModel NumModel ConvModel DmxValProps DmxModel.
Import ListNotations.
Open Scope N_scope.

(** ** C51 *)
(** The channel uses [n] bytes: the first [n] offsets are set, the others are not. *)
Definition uses (o : N * N * N * N) (n : N) : Prop :=
  let '(c, f, u, b) := o in
  (n = 1 /\ c <> 0 /\ f = 0 /\ u = 0 /\ b = 0) \/ (n = 2 /\ c <> 0 /\ f <> 0 /\ u = 0 /\ b = 0)
  \/ (n = 3 /\ c <> 0 /\ f <> 0 /\ u <> 0 /\ b = 0) \/ (n = 4 /\ c <> 0 /\ f <> 0 /\ u <> 0 /\ b <> 0).
Theorem C51_bytes_partial : forall o n, uses o n ->
  bit_resolution o = n /\ channel_max o = 256 ^ n - 1 /\ is_virtual o = false.
Proof.
  intros (((c, f), u), b) n H. unfold channel_max. cbn [uses bit_resolution is_virtual] in *.
  destruct H as [H|[H|[H|H]]]; destruct H as (-> & Hc & Hf & Hu & Hb);
    repeat match goal with |- context[?x =? 0] => first [replace (x =? 0) with true by lia|replace (x =? 0) with false by lia] end;
    (split; [reflexivity|]); (split; [vm_compute; reflexivity|reflexivity]).
Qed.
Print Assumptions C51_bytes_partial.
(** A virtual channel (no offset) has 16 bits. *)
Theorem C51_virtual : forall o, (is_virtual o = true <-> o = (0, 0, 0, 0)) /\ (is_virtual o = true -> bit_resolution o = 2 /\ channel_max o = 65535).
Proof.
  intros (((c, f), u), b). unfold channel_max. cbn [is_virtual bit_resolution]. split.
  - split; [intros H; repeat (f_equal; try lia)|]. intros [= -> -> -> ->]. reflexivity.
  - intros H. replace (c =? 0) with true by lia. split; vm_compute; reflexivity.
Qed.
Print Assumptions C51_virtual.
(** Every resolution is one of the four, and the greatest value belongs to it. *)
Theorem C51_always : forall o, bytes_1_4 (bit_resolution o) /\ channel_max o = 256 ^ bit_resolution o - 1.
Proof.
  intros o. assert (H : bytes_1_4 (bit_resolution o)).
  { destruct o as (((c, f), u), b). cbn [bit_resolution]. unfold bytes_1_4. repeat destruct (_ =? 0); lia. }
  split; [exact H|]. unfold channel_max. rewrite max_dmx_top by exact H. reflexivity.
Qed.
Print Assumptions C51_always.
(** Offsets with a hole, as read from a file: one address in use but 16 bits; three in use but 8 bits. *)
Theorem C51_hole_refuted : exists s t, s = T"0,5" /\ t = T"1,0,3,4"
  /\ read_offset s = Ok (mkRd (0, 5, 0, 0) true 0) /\ channel_max (0, 5, 0, 0) = 65535
  /\ read_offset t = Ok (mkRd (1, 0, 3, 4) true 0) /\ channel_max (1, 0, 3, 4) = 255.
Proof. do 2 eexists. split; [reflexivity|]. split; [reflexivity|]. repeat split; vm_compute; reflexivity. Qed.
Print Assumptions C51_hole_refuted.
(** An offset of 65536 given to the setter makes the channel virtual. *)
Theorem C51_cut_refuted : exists z, (z > 0)%Z /\ is_virtual (set_offset z, 0, 0, 0) = true.
Proof. exists 65536%Z. split; [lia|vm_compute; reflexivity]. Qed.
Print Assumptions C51_cut_refuted.
Example C51_case : uses (7, 8, 0, 0) 2 /\ channel_max (7, 8, 0, 0) = 65535 /\ channel_max (7, 8, 9, 10) = 4294967295.
Proof. split; [cbn; lia|]. split; vm_compute; reflexivity. Qed.

(** ** C46 *)
(** In how many of the ranges the value lies. *)
Definition hits (v : N) (l : list (N * N)) : nat := List.length (filter (fun r => (fst r <=? v) && (v <=? snd r)) l).
(** The ranges cover 0..max, every value once. *)
Definition partition (max : N) (l : list (N * N)) : Prop := forall v, hits v l = if v <=? max then 1%nat else 0%nat.
Definition increasing (l : list N) : Prop := StronglySorted N.lt l.

Lemma hits_cons v r l : hits v (r :: l) = ((if ((fst r <=? v) && (v <=? snd r))%N then 1 else 0) + hits v l)%nat.
Proof. unfold hits. cbn [filter]. destruct (_ && _); reflexivity. Qed.
Lemma end_lt max a n : a < n -> n <= max -> max < two64 -> end_address max a (Some n) = n - 1.
Proof.
  intros H1 H2 H3. unfold end_address. replace (n <=? a) with false by lia. unfold two64 in *.
  replace (n + 18446744073709551616 - 1) with (n - 1 + 1 * 18446744073709551616) by lia. rewrite N.mod_add by lia. apply N.mod_small. lia.
Qed.
Definition harmless (follow : option N) : Prop := follow = None \/ follow = Some 0.
Lemma end_follow max a follow : harmless follow -> end_address max a follow = max.
Proof. intros [->| ->]; [reflexivity|]. unfold end_address. replace (0 <=? a) with true by lia. reflexivity. Qed.
Lemma hits_up max follow : harmless follow -> max < two64 -> forall l a, increasing (a :: l) -> Forall (fun x => x <= max) (a :: l) ->
  forall v, hits v (ranges max (a :: l) follow) = if (a <=? v) && (v <=? max) then 1%nat else 0%nat.
Proof.
  intros Hf Hm l. induction l as [|b l IH]; intros a S F v; cbn [ranges]; rewrite hits_cons; cbn [fst snd].
  - rewrite end_follow by exact Hf. unfold hits. cbn. destruct (_ && _); reflexivity.
  - inversion_clear S as [|? ? S' F']. inversion_clear F as [|? ? Fa F0]. apply Forall_inv in F'. inversion F0; subst.
    rewrite end_lt by (assumption || lia). change ((b, _) :: _) with (ranges max (b :: l) follow). rewrite (IH b S' F0 v).
    destruct (_ && _) eqn:E1; destruct ((b <=? v) && _) eqn:E2; destruct ((a <=? v) && (v <=? max)) eqn:E3; lia.
Qed.
Lemma hits_max max follow : harmless follow -> forall l a, a <= max -> Forall (fun x => x <= max) l ->
  (1 <= hits max (ranges max (a :: l) follow))%nat.
Proof.
  intros Hf l. induction l as [|b l IH]; intros a Ha F; cbn [ranges]; rewrite hits_cons; cbn [fst snd].
  - rewrite end_follow by exact Hf. replace (_ && _) with true by lia. lia.
  - inversion_clear F as [|? ? Fb F']. pose proof (IH b Fb F') as I. cbn [ranges] in I. lia.
Qed.
(** For functions inside the channel, the ranges partition 0..max exactly when the start values begin
    with 0 and increase. *)
Theorem C46_partition_partial : forall max starts follow, harmless follow -> max < two64 -> starts <> [] -> Forall (fun x => x <= max) starts ->
  (partition max (ranges max starts follow) <-> increasing starts /\ hd 0 starts = 0).
Proof.
  intros max starts follow Hf Hm Hn F. destruct starts as [|a l]; [congruence|]. clear Hn. split.
  - intros P. assert (S : increasing (a :: l)).
    { assert (M : (hits max (ranges max (a :: l) follow) <= 1)%nat) by (rewrite P; destruct (_ <=? _); lia).
      clear P. revert a F M. induction l as [|b l IH]; intros a F M; [repeat constructor|].
      inversion_clear F as [|? ? Fa F0]. cbn [ranges] in M. rewrite hits_cons in M. change ((b, _) :: _) with (ranges max (b :: l) follow) in M.
      inversion F0; subst. pose proof (hits_max max follow Hf l b H1 H2) as G.
      destruct (_ && _) eqn:E in M; [lia|]. cbn [fst snd] in E. assert (L : a < b).
      { unfold end_address in E. destruct (b <=? a) eqn:K; lia. }
      pose proof (IH b F0 ltac:(lia)) as S. constructor; [exact S|]. constructor; [exact L|].
      inversion_clear S as [|? ? S' B]. eapply Forall_impl; [|exact B]. intros x Hx. cbn in Hx. lia. }
    split; [exact S|]. cbn [hd]. pose proof (P 0) as P0. rewrite (hits_up max follow Hf Hm l a S F) in P0.
    replace (0 <=? max) with true in P0 by lia. destruct (_ && _) eqn:E in P0; [lia|discriminate].
  - intros (S & Z) v. cbn [hd] in Z. subst a. rewrite (hits_up max follow Hf Hm l 0 S F). replace (0 <=? v) with true by lia. reflexivity.
Qed.
Print Assumptions C46_partition_partial.

Lemma bind_ok {A B} (x : res A) (f : A -> res B) y : bind x f = Ok y -> exists a, x = Ok a /\ f a = Ok y.
Proof. destruct x; cbn [bind]; try discriminate. intros H. eexists. split; [reflexivity|exact H]. Qed.
Lemma read_dmx_errs old s n r : read_dmx old s n = Ok r -> rd_ok r = false -> rd_errs r <> 0.
Proof.
  unfold read_dmx. destruct (is_empty s). { intros [= <-]; discriminate. }
  destruct (tx_find s T"/" 0 false) as [p|]; [|intros [= <-]; discriminate].
  destruct (split_at s p) as [a b]. destruct (to_bytes a); [|discriminate].
  intros H. apply bind_ok in H as (z & _ & H). apply bind_ok in H as (c & _ & H).
  destruct (if c then _ else _) as [[raw bs] errs]. apply bind_ok in H as (v & _ & H). apply bind_ok in H as (w & _ & H).
  destruct (max_dmx n <? w) eqn:E; inversion H; subst; cbn [rd_ok rd_errs]; [lia|discriminate].
Qed.
Lemma read_functions_spec reso : bytes_1_4 reso -> forall texts first starts e, read_functions reso texts first = Ok (starts, e) ->
  List.length starts = List.length texts /\ (first = true -> hd 0 starts = 0) /\ (e = 0 -> Forall (fun x => x <= top reso) starts).
Proof.
  intros Hr. induction texts as [|t r IH]; intros first starts e H; cbn [read_functions] in H.
  - injection H as <- <-. split; [reflexivity|]. split; [reflexivity|constructor].
  - apply bind_ok in H as (v & Hv & H). apply bind_ok in H as ((l, e') & Hl & H). cbn [fst snd] in H. specialize (IH _ _ _ Hl) as (I1 & _ & I3).
    destruct (first && negb (rd_val v =? 0)) eqn:E; injection H as <- <-; cbn [List.length hd].
    + split; [lia|]. split; [reflexivity|]. intros. lia.
    + split; [lia|]. split; [intros ->; lia|]. intros Z. constructor; [|apply I3; lia].
      apply (C39_accepted_in_range t reso 0 v Hr Hv). destruct (rd_ok v) eqn:K; [reflexivity|]. exfalso. apply (read_dmx_errs _ _ _ _ Hv K). lia.
Qed.
Lemma read_logical_spec reso : bytes_1_4 reso -> forall nodes logical e, read_logical reso nodes = Ok (logical, e) ->
  Forall (fun l => hd 0 l = 0) logical /\ (e = 0 -> Forall (Forall (fun x => x <= top reso)) logical).
Proof.
  intros Hr. induction nodes as [|t r IH]; intros logical e H; cbn [read_logical] in H.
  - injection H as <- <-. split; [constructor|intros; constructor].
  - apply bind_ok in H as ((a, ea) & Ha & H). apply bind_ok in H as ((l, e') & Hl & H). cbn [fst snd] in H. injection H as <- <-.
    destruct (IH _ _ Hl) as (I1 & I2). destruct (read_functions_spec reso Hr _ _ _ _ Ha) as (_ & F2 & F3).
    split; [constructor; [now apply F2|exact I1]|]. intros Z. constructor; [apply F3|apply I2]; lia.
Qed.
Lemma top_lt n : bytes_1_4 n -> top n < two64.
Proof. intros H. destruct (bytes_cases n H) as [-> |[-> |[-> | ->]]]; vm_compute; reflexivity. Qed.
(** For every channel node that is read without an error: the functions of each logical channel whose
    start values increase partition 0..max. *)
Theorem C46_read : forall reso nodes logical i starts rs, bytes_1_4 reso -> read_logical reso nodes = Ok (logical, 0) ->
  nth_error logical i = Some starts -> nth_error (channel_ranges (max_dmx reso) logical) i = Some rs ->
  starts <> [] -> (partition (top reso) rs <-> increasing starts).
Proof.
  intros reso nodes logical i starts rs Hr H Hi Hc Hn. rewrite (max_dmx_top reso Hr) in Hc.
  destruct (read_logical_spec reso Hr _ _ _ H) as (Z & F). specialize (F eq_refl). clear H.
  revert i Hi Hc. induction logical as [|l r IH]; intros [|i] Hi Hc; try discriminate.
  - cbn in Hi, Hc. injection Hi as ->. injection Hc as <-. inversion_clear Z as [|? ? Z1 Z2]. inversion_clear F as [|? ? F1 F2].
    assert (Hf : harmless (match r with (b :: _) :: _ => Some b | _ => None end)).
    { destruct r as [|[|b x] r]; [now left|now left|]. apply Forall_inv in Z2. cbn in Z2. subst b. now right. }
    rewrite (C46_partition_partial (top reso) starts _ Hf (top_lt reso Hr) Hn F1). tauto.
  - inversion_clear Z. inversion_clear F. now apply (IH H0 H2 i).
Qed.
Print Assumptions C46_read.
(** Start values are stored even if they are refused: with increasing starts 0 and 300 on an 8-bit
    channel (an error is reported) the first range leaves the channel. *)
Theorem C46_above_refuted : exists nodes logical, nodes = [[T"0/1"; T"300/1"]] /\ read_logical 1 nodes = Ok (logical, 1)
  /\ Forall increasing logical /\ channel_ranges (max_dmx 1) logical = [[(0, 299); (300, 255)]]
  /\ ~ Forall (partition (max_dmx 1)) (channel_ranges (max_dmx 1) logical).
Proof.
  eexists. exists [[0; 300]]. split; [reflexivity|]. split; [vm_compute; reflexivity|]. split.
  - constructor; [|constructor]. unfold increasing. repeat constructor.
  - split; [vm_compute; reflexivity|]. intros H. apply Forall_inv in H. specialize (H 299). vm_compute in H. discriminate.
Qed.
Print Assumptions C46_above_refuted.
Example C46_case : read_logical 1 [[T"0/1"; T"100/1"; T"200/1"]; [T"0/1"; T"50/1"]] = Ok ([[0; 100; 200]; [0; 50]], 0)
  /\ channel_ranges 255 [[0; 100; 200]; [0; 50]] = [[(0, 99); (100, 199); (200, 255)]; [(0, 49); (50, 255)]]
  /\ increasing [0; 100; 200] /\ hits 100 [(0, 99); (100, 199); (200, 255)] = 1%nat.
Proof. split; [vm_compute; reflexivity|]. split; [vm_compute; reflexivity|]. split; [unfold increasing; repeat constructor|vm_compute; reflexivity]. Qed.

(** ** C47 *)
(** The last start value stays below [b]. *)
Lemma increasing_app l x : increasing (l ++ [x]) <-> increasing l /\ Forall (fun y => y < x) l.
Proof.
  unfold increasing. induction l as [|a l IH]; cbn [app].
  - split; [intros; split; constructor|]. intros. repeat constructor.
  - split.
    + intros H. inversion_clear H as [|? ? S F]. apply IH in S as (S & G). apply Forall_app in F as (F1 & F2). apply Forall_inv in F2.
      split; constructor; assumption.
    + intros (S & F). inversion_clear S. inversion_clear F. constructor; [apply IH; now split|]. apply Forall_app. split; [assumption|]. repeat constructor. assumption.
Qed.
(** Where the chain of sets is linked: every set but the last has a successor. *)
Fixpoint linked (l : list cset) : Prop :=
  match l with [] => True | a :: r => (cs_next a = match r with [] => false | _ => true end) /\ cs_end a = no_end /\ linked r end.
Lemma link_spec s : cs_next s = false -> cs_end s = no_end -> forall l r, linked l -> link l s = Some r ->
  linked r /\ map cs_start r = map cs_start l ++ [cs_start s] /\ map cs_name r = map cs_name l ++ [cs_name s]
  /\ (l <> [] -> last (map cs_start l) 0 < cs_start s).
Proof.
  intros Hs He. induction l as [|a l IH]; intros r L H; cbn [link] in H.
  - injection H as <-. cbn. repeat split; try assumption. congruence.
  - destruct l as [|b l].
    + destruct (cs_start s <=? cs_start a) eqn:E; [discriminate|]. injection H as <-. destruct L as (_ & L2 & _). cbn.
      repeat split; try assumption. intros _. lia.
    + destruct (link (b :: l) s) as [x|] eqn:E; [|discriminate]. injection H as <-. destruct L as (L1 & L2 & L3).
      destruct (IH x L3 eq_refl) as (I1 & I2 & I3 & I4). split.
      * cbn [linked]. split; [|split; assumption]. rewrite L1. destruct x; [|reflexivity]. cbn in I2. discriminate.
      * cbn [map app] in *. rewrite I2, I3. repeat split. intros _. apply I4. discriminate.
Qed.
Lemma link_none s : forall l, link l s = None -> l <> [] /\ cs_start s <= last (map cs_start l) 0.
Proof.
  induction l as [|a l IH]; cbn [link]; [discriminate|]. destruct l as [|b l].
  - destruct (_ <=? _) eqn:E; [|discriminate]. intros _. split; [discriminate|]. cbn. lia.
  - destruct (link (b :: l) s); [discriminate|]. intros _. destruct (IH eq_refl) as (_ & I). split; [discriminate|exact I].
Qed.
Lemma last_bound l x : increasing l -> l <> [] -> last l 0 < x -> Forall (fun y => y < x) l.
Proof.
  induction l as [|a l IH]; intros S N H; [constructor|]. inversion_clear S as [|? ? S' F]. destruct l as [|b l].
  - cbn in H. repeat constructor. exact H.
  - assert (G : Forall (fun y => y < x) (b :: l)) by (apply IH; [assumption|discriminate|exact H]).
    constructor; [|exact G]. apply Forall_inv in F. apply Forall_inv in G. lia.
Qed.

Lemma cascade_spec max : forall l c, increasing (map cs_start l) -> Forall (fun x => c <= x) (map cs_start l) ->
  c + N.of_nat (List.length l) <= max ->
  increasing (map cs_start (cascade max l)) /\ Forall (fun x => c <= x) (map cs_start (cascade max l))
  /\ Forall (fun x => x < max) (map cs_start (cascade max l)) /\ map cs_name (cascade max l) = map cs_name l
  /\ (linked l -> linked (cascade max l)) /\ List.length (cascade max l) = List.length l
  /\ Forall2 (fun a b => a <= b) (map cs_start (cascade max l)) (map cs_start l).
Proof.
  induction l as [|s r IH]; intros c S F L; cbn [cascade].
  - repeat split; try constructor.
  - cbn [map List.length] in *. inversion_clear S as [|? ? S' G]. inversion_clear F as [|? ? Fs F'].
    destruct (IH (c + 1) S') as (I1 & I2 & I3 & I4 & I5 & I6 & I7); [|lia|].
    { eapply Forall_impl; [|exact G]. cbn. intros x. lia. }
    set (next := match cascade max r with [] => max | t :: _ => cs_start t end).
    assert (N1 : c < next /\ next <= max).
    { unfold next. destruct (cascade max r) as [|t r']; [lia|]. cbn [map] in *. apply Forall_inv in I2. apply Forall_inv in I3. lia. }
    assert (N2 : Forall (fun x => next <= x) (map cs_start (cascade max r))).
    { unfold next. destruct (cascade max r) as [|t r']; [constructor|]. cbn [map] in *. inversion_clear I1 as [|? ? _ H].
      constructor; [lia|]. eapply Forall_impl; [|exact H]. cbn. intros x. lia. }
    replace (0 <? next) with true by lia. set (s' := if next <=? cs_start s then with_start s (next - 1) else s).
    assert (Hs : c <= cs_start s' /\ cs_start s' < next /\ cs_start s' <= cs_start s) by (unfold s'; destruct (next <=? cs_start s) eqn:E; cbn [with_start cs_start]; lia).
    assert (Hn : cs_name s' = cs_name s /\ cs_next s' = cs_next s /\ cs_end s' = cs_end s) by (unfold s'; destruct (next <=? cs_start s); repeat split).
    clearbody s'. destruct Hs as (H1 & H2 & H2'). destruct Hn as (H3 & H4 & H5). cbn [map List.length].
    split; [|split; [|split; [|split; [|split; [|split]]]]].
    + constructor; [exact I1|]. eapply Forall_impl; [|exact N2]. cbn. intros x. lia.
    + constructor; [exact H1|]. eapply Forall_impl; [|exact I2]. cbn. intros x. lia.
    + constructor; [lia|exact I3].
    + now rewrite H3, I4.
    + cbn [linked]. rewrite H4, H5. intros (L1 & L2 & L3). split; [|split; [exact L2|now apply I5]].
      rewrite L1. destruct r; [reflexivity|]. destruct (cascade max (c0 :: r)); [discriminate I6|reflexivity].
    + now rewrite I6.
    + constructor; assumption.
Qed.
Lemma next_free_spec sets max : forall fuel cur, (N.to_nat (max - cur) <= fuel)%nat -> cur <= max ->
  (exists c, next_free fuel sets max cur = Ok (false, c) /\ cur <= c /\ c < max
     /\ ~ In c (map cs_start sets) /\ (forall x, cur <= x -> x < c -> In x (map cs_start sets)))
  \/ (next_free fuel sets max cur = Ok (true, max) /\ (forall x, cur <= x -> x < max -> In x (map cs_start sets))).
Proof.
  induction fuel as [|f IH]; intros cur Hf Hc; cbn [next_free].
  - replace (cur <? max) with false by lia. right. assert (cur = max) by lia. subst. split; [reflexivity|]. intros; lia.
  - destruct (cur <? max) eqn:E.
    + destruct (existsb _ sets) eqn:X.
      * assert (Hi : In cur (map cs_start sets)).
        { apply existsb_exists in X as (s & X1 & X2). apply in_map_iff. exists s. split; [lia|exact X1]. }
        destruct (IH (cur + 1)) as [(c & I1 & I2 & I3 & I4 & I5)|(I1 & I2)]; [lia|lia| |].
        -- left. exists c. split; [exact I1|]. split; [lia|]. split; [exact I3|]. split; [exact I4|]. intros x X1' X2'.
           destruct (N.eq_dec x cur) as [->|]; [exact Hi|]. apply I5; lia.
        -- right. split; [exact I1|]. intros x X1' X2'. destruct (N.eq_dec x cur) as [->|]; [exact Hi|]. apply I2; lia.
      * left. exists cur. split; [reflexivity|]. split; [lia|]. split; [lia|]. split; [|intros; lia].
        intros Hi. apply in_map_iff in Hi as (s & Hs1 & Hs2). rewrite <- not_true_iff_false in X. apply X.
        apply existsb_exists. exists s. split; [exact Hs2|lia].
    + right. assert (cur = max) by lia. subst. split; [reflexivity|]. intros; lia.
Qed.

(** What holds of the sets while they are read. *)
Definition good (max : N) (l : list cset) : Prop := increasing (map cs_start l) /\ Forall (fun x => x <= max) (map cs_start l) /\ linked l.
Lemma link_good max s l : cs_next s = false -> cs_end s = no_end -> cs_start s <= max -> good max l ->
  match link l s with
  | Some r => good max r /\ map cs_name r = map cs_name l ++ [cs_name s] /\ map cs_start r = map cs_start l ++ [cs_start s]
  | None => True
  end.
Proof.
  intros H1 H2 H3 (G1 & G2 & G3). destruct (link l s) as [r|] eqn:E; [|exact I].
  destruct (link_spec s H1 H2 l r G3 E) as (L1 & L2 & L3 & L4). split; [|split; assumption].
  split; [|split; [|exact L1]]; rewrite L2.
  - apply increasing_app. split; [exact G1|]. destruct l as [|a l]; [constructor|]. apply last_bound; [exact G1|discriminate|apply L4; discriminate].
  - apply Forall_app. split; [exact G2|]. repeat constructor. exact H3.
Qed.
Lemma last_in l : l <> [] -> In (last l 0) l.
Proof. intros H. destruct (exists_last H) as (q & x & ->). rewrite last_last. apply in_app_iff. right. now left. Qed.
(** One more set: it is taken, or refused with an error. *)
Lemma add_set_good virtual max l s : cs_next s = false -> cs_end s = no_end -> cs_start s <= max -> good max l ->
  exists r e, add_set virtual max l s = Ok (r, e) /\ good max r
    /\ (e = 0 /\ map cs_name r = map cs_name l ++ [cs_name s] \/ e = 1 /\ r = l).
Proof.
  intros H1 H2 H3 G. unfold add_set. destruct virtual.
  - destruct (max <=? N.of_nat (List.length l)) eqn:E; [eexists; eexists; split; [reflexivity|]; split; [exact G|]; right; now split|].
    destruct (next_free_spec l max (N.to_nat (max - cs_start s)) (cs_start s)) as [(c & I1 & I2 & I3 & I4 & I5)|(I1 & I2)]; [lia|exact H3| |]; rewrite I1; cbn [bind].
    + pose proof (link_good max (with_start s c) l H1 H2) as K. cbn [with_start cs_start cs_name] in K. specialize (K ltac:(lia) G).
      destruct (link l (with_start s c)) as [r|].
      * exists r, 0. split; [reflexivity|]. destruct K as (K1 & K2 & _). split; [exact K1|]. left. now split.
      * exists l, 1. split; [reflexivity|]. split; [exact G|]. right. now split.
    + destruct G as (G1 & G2 & G3). destruct (cascade_spec max l 0) as (C1 & C2 & C3 & C4 & C5 & C6 & _); [exact G1|apply Forall_forall; intros; lia|lia|].
      assert (G' : good max (cascade max l)).
      { split; [exact C1|]. split; [|now apply C5]. eapply Forall_impl; [|exact C3]. cbn. intros; lia. }
      pose proof (link_good max (with_start s max) (cascade max l) H1 H2) as K. cbn [with_start cs_start cs_name] in K. specialize (K ltac:(lia) G').
      destruct (link (cascade max l) (with_start s max)) as [r|] eqn:El.
      * exists r, 0. split; [reflexivity|]. destruct K as (K1 & K2 & _). split; [exact K1|]. left. rewrite K2, C4. now split.
      * exfalso. apply link_none in El as (N1 & N2). cbn [with_start cs_start] in N2. rewrite Forall_forall in C3.
        specialize (C3 (last (map cs_start (cascade max l)) 0)). apply N.lt_nge in C3; [contradiction|]. apply last_in. destruct (cascade max l); [congruence|discriminate].
  - pose proof (link_good max s l H1 H2 H3 G) as K. destruct (link l s) as [r|].
    + exists r, 0. split; [reflexivity|]. destruct K as (K1 & K2 & _). split; [exact K1|]. left. now split.
    + exists l, 1. split; [reflexivity|]. split; [exact G|]. right. now split.
Qed.

(** [l] is [r] with some elements left out. *)
Inductive sublist {A} : list A -> list A -> Prop :=
| sub_nil : sublist [] []
| sub_skip a l r : sublist l r -> sublist l (a :: r)
| sub_take a l r : sublist l r -> sublist (a :: l) (a :: r).
Lemma read_nodes_good virtual reso : bytes_1_4 reso -> forall nodes l r e, good (top reso) l ->
  read_set_nodes virtual reso l nodes = Ok (r, e) ->
  good (top reso) r
  /\ (exists names, map cs_name r = map cs_name l ++ names /\ sublist names (map fst nodes))
  /\ N.of_nat (List.length l + List.length nodes) <= N.of_nat (List.length r) + e.
Proof.
  intros Hr. induction nodes as [|(name, from) nodes IH]; intros l r e G H; cbn [read_set_nodes] in H.
  - injection H as <- <-. split; [exact G|]. split; [exists []; rewrite app_nil_r; split; [reflexivity|constructor]|]. cbn. lia.
  - apply bind_ok in H as (v & Hv & H). destruct (rd_ok v) eqn:Ok1.
    + pose proof (C39_accepted_in_range from reso 0 v Hr Hv Ok1) as B. rewrite (max_dmx_top reso Hr) in H.
      destruct (add_set_good virtual (top reso) l (mkSet name (rd_val v) no_end false) eq_refl eq_refl B G) as (l' & e1 & A1 & A2 & A3).
      rewrite A1 in H. cbn [bind fst snd] in H. apply bind_ok in H as ((r', e') & Hl & H). cbn [fst snd] in H. injection H as <- <-.
      destruct (IH _ _ _ A2 Hl) as (I1 & (names & I2 & I3) & I4). split; [exact I1|]. cbn [map fst List.length cs_name] in *. destruct A3 as [(-> & A3)|(-> & ->)].
      * split; [exists (name :: names); rewrite I2, A3, <- app_assoc; split; [reflexivity|now constructor]|].
        apply (f_equal (@List.length _)) in A3. rewrite app_length, !map_length in A3. cbn in A3. lia.
      * split; [exists names; split; [exact I2|now constructor]|]. lia.
    + apply bind_ok in H as ((r', e') & Hl & H). cbn [fst snd] in H. injection H as <- <-.
      destruct (IH _ _ _ G Hl) as (I1 & (names & I2 & I3) & I4). split; [exact I1|]. cbn [map fst List.length] in *.
      split; [exists names; split; [exact I2|now constructor]|]. pose proof (read_dmx_errs _ _ _ _ Hv Ok1). lia.
Qed.
Lemma set_ends_map l : map cs_start (set_ends l) = map cs_start l /\ map cs_name (set_ends l) = map cs_name l /\ map cs_next (set_ends l) = map cs_next l.
Proof.
  induction l as [|a l (I1 & I2 & I3)]; [repeat split|]. cbn [set_ends map]. destruct l as [|b l]; rewrite I1, I2, I3; repeat split.
Qed.
Lemma good_nil max : good max []. Proof. repeat split; constructor. Qed.
(** For every list of nodes, virtual or physical: the start values increase and are inside the channel;
    the sets are some of the nodes in their order; as many errors are reported as nodes are left out. *)
Theorem C47_increasing : forall virtual reso nodes sets e, bytes_1_4 reso -> read_sets virtual reso nodes = Ok (sets, e) ->
  increasing (map cs_start sets) /\ Forall (fun s => cs_start s <= 256 ^ reso - 1) sets
  /\ sublist (map cs_name sets) (map fst nodes) /\ N.of_nat (List.length nodes) <= N.of_nat (List.length sets) + e.
Proof.
  intros virtual reso nodes sets e Hr H. unfold read_sets in H. apply bind_ok in H as ((r, e') & H1 & H). cbn [fst snd] in H. injection H as <- <-.
  destruct (read_nodes_good virtual reso Hr _ _ _ _ (good_nil _) H1) as ((G1 & G2 & _) & (names & N1 & N2) & C).
  destruct (set_ends_map r) as (S1 & S2 & S3). rewrite S1, S2. split; [exact G1|]. split.
  - rewrite <- S1 in G2. apply (proj1 (Forall_map cs_start (fun x => x <= top reso) (set_ends r)) G2).
  - split; [rewrite N1; exact N2|]. rewrite <- (map_length cs_start (set_ends r)), S1, map_length. exact C.
Qed.
Print Assumptions C47_increasing.
Lemma linked_ends fend max : max < two64 -> forall l, good max l -> forall i a b, nth_error (set_ends l) i = Some a -> nth_error (set_ends l) (S i) = Some b ->
  dmx_end fend a + 1 = cs_start b.
Proof.
  intros Hm. induction l as [|s l IH]; intros (G1 & G2 & G3) i a b Ha Hb; [destruct i; discriminate|].
  cbn [set_ends] in Ha, Hb. cbn [map] in G1, G2. inversion_clear G1 as [|? ? S F]. inversion_clear G2 as [|? ? B1 B2]. destruct G3 as (L1 & L2 & L3).
  destruct i as [|i].
  - cbn in Ha, Hb. injection Ha as <-. destruct l as [|t l]; [discriminate|]. cbn in Hb. injection Hb as <-.
    assert (Es : cs_start (match l with b :: _ => with_end t ((cs_start b + two64 - 1) mod two64) | [] => t end) = cs_start t) by (destruct l; reflexivity).
    rewrite Es. unfold dmx_end. cbn [with_end cs_next cs_end]. rewrite L1. cbn [negb andb]. cbn [map] in F, B2. apply Forall_inv in F. apply Forall_inv in B2. unfold two64 in *.
    replace (cs_start t + 18446744073709551616 - 1) with (cs_start t - 1 + 1 * 18446744073709551616) by lia. rewrite N.mod_add by lia. rewrite N.mod_small by lia. lia.
  - cbn [nth_error] in Ha, Hb. apply (IH (conj S (conj B2 L3)) i a b Ha Hb).
Qed.
(** Every set ends just before the next one starts; the last one ends with the function. *)
Theorem C47_ends : forall virtual reso nodes sets e fend, bytes_1_4 reso -> read_sets virtual reso nodes = Ok (sets, e) ->
  (forall i a b, nth_error sets i = Some a -> nth_error sets (S i) = Some b -> dmx_end fend a + 1 = cs_start b)
  /\ (forall l s, sets = l ++ [s] -> dmx_end fend s = fend).
Proof.
  intros virtual reso nodes sets e fend Hr H. unfold read_sets in H. apply bind_ok in H as ((r, e') & H1 & H). cbn [fst snd] in H. injection H as <- <-.
  destruct (read_nodes_good virtual reso Hr _ _ _ _ (good_nil _) H1) as (G & _ & _). split.
  - apply (linked_ends fend (top reso) (top_lt reso Hr) r G).
  - destruct G as (_ & _ & L). clear H1. induction r as [|a r IH]; intros l s E; [destruct l; discriminate|]. cbn [set_ends] in E. destruct L as (L1 & L2 & L3).
    destruct l as [|x l]; cbn [app] in E.
    + assert (E1 := f_equal (hd a) E). assert (E2 := f_equal (@tl _) E). cbn [hd tl] in E1, E2. destruct r as [|b r]; [|cbn [set_ends] in E2; discriminate].
      subst s. unfold dmx_end. rewrite L1, L2. rewrite N.eqb_refl. reflexivity.
    + apply (f_equal (@tl _)) in E. cbn [tl] in E. apply (IH L3 l s E).
Qed.
Print Assumptions C47_ends.
(** Reading the sets always ends: it stops only where reading a value does. *)
Theorem C47_terminates : forall virtual reso nodes, bytes_1_4 reso ->
  (forall name from, In (name, from) nodes -> exists v, read_dmx 0 from reso = Ok v) ->
  exists sets e, read_sets virtual reso nodes = Ok (sets, e).
Proof.
  intros virtual reso nodes Hr H. unfold read_sets.
  assert (K : forall l, good (top reso) l -> exists r, read_set_nodes virtual reso l nodes = Ok r).
  { induction nodes as [|(name, from) nodes IH]; intros l G; cbn [read_set_nodes]; [eauto|].
    destruct (H name from (or_introl eq_refl)) as (v & Hv). rewrite Hv. cbn [bind].
    assert (H' : forall name from, In (name, from) nodes -> exists v, read_dmx 0 from reso = Ok v) by (intros n f Hi; apply (H n f); now right).
    destruct (rd_ok v) eqn:E.
    - rewrite (max_dmx_top reso Hr). pose proof (C39_accepted_in_range from reso 0 v Hr Hv E) as B.
      destruct (add_set_good virtual (top reso) l (mkSet name (rd_val v) no_end false) eq_refl eq_refl B G) as (l' & e1 & A1 & A2 & A3).
      rewrite A1. cbn [bind fst snd]. destruct (IH H' l' A2) as (r & ->). cbn [bind]. eauto.
    - destruct (IH H' l G) as (r & ->). cbn [bind]. eauto. }
  destruct (K [] (good_nil _)) as (r & ->). cbn [bind]. eauto.
Qed.
Print Assumptions C47_terminates.
(** On a physical channel the sets taken are the nodes with an accepted value above all values taken
    before, with that value. *)
Inductive Taken (reso : N) : option N -> list (list N * list N) -> list (list N * N) -> Prop :=
| taken_nil m : Taken reso m [] []
| taken_bad m name from v r l : read_dmx 0 from reso = Ok v -> rd_ok v = false -> Taken reso m r l -> Taken reso m ((name, from) :: r) l
| taken_low m name from v r l : read_dmx 0 from reso = Ok v -> rd_ok v = true -> rd_val v <= m -> Taken reso (Some m) r l -> Taken reso (Some m) ((name, from) :: r) l
| taken_new m name from v r l : read_dmx 0 from reso = Ok v -> rd_ok v = true -> (forall w, m = Some w -> w < rd_val v) ->
    Taken reso (Some (rd_val v)) r l -> Taken reso m ((name, from) :: r) ((name, rd_val v) :: l).
Definition named (s : cset) : list N * N := (cs_name s, cs_start s).
Lemma split_ends_named l : map named (set_ends l) = map named l.
Proof. induction l as [|a l IH]; [reflexivity|]. cbn [set_ends map]. rewrite IH. destruct l; reflexivity. Qed.
Lemma link_named s : forall l r, link l s = Some r -> map named r = map named l ++ [named s].
Proof.
  induction l as [|a l IH]; intros r H; cbn [link] in H; [injection H as <-; reflexivity|]. destruct l as [|b l].
  - destruct (_ <=? _); [discriminate|]. injection H as <-. reflexivity.
  - destruct (link (b :: l) s); [|discriminate]. injection H as <-. cbn [map app] in *. now rewrite (IH _ eq_refl).
Qed.
Theorem C47_physical : forall reso nodes sets e, bytes_1_4 reso -> read_sets false reso nodes = Ok (sets, e) ->
  Taken reso None nodes (map named sets).
Proof.
  intros reso nodes sets e Hr H. unfold read_sets in H. apply bind_ok in H as ((r, e') & H1 & H). cbn [fst snd] in H. injection H as <- _.
  rewrite split_ends_named.
  assert (K : forall nodes l r e, good (top reso) l -> read_set_nodes false reso l nodes = Ok (r, e) ->
    exists t, map named r = map named l ++ t /\ Taken reso (match l with [] => None | _ => Some (last (map cs_start l) 0) end) nodes t).
  { clear -Hr. induction nodes as [|(name, from) nodes IH]; intros l r e G H; cbn [read_set_nodes] in H.
    - injection H as <- _. exists []. split; [now rewrite app_nil_r|constructor].
    - apply bind_ok in H as (v & Hv & H). destruct (rd_ok v) eqn:Ev.
      + unfold add_set in H. set (s := mkSet name (rd_val v) no_end false) in *.
        pose proof (C39_accepted_in_range from reso 0 v Hr Hv Ev) as B.
        pose proof (link_good (top reso) s l eq_refl eq_refl B G) as K. destruct (link l s) as [l'|] eqn:El.
        * cbn [bind fst snd] in H. apply bind_ok in H as ((r', e'') & Hl & H). cbn [fst snd] in H. injection H as <- _.
          pose proof (link_named s l l' El) as Nm. destruct K as (K1 & K2 & K3).
          destruct (IH l' r' e'' K1 Hl) as (t & I1 & I2). exists ((name, rd_val v) :: t). split.
          { rewrite I1, Nm, <- app_assoc. reflexivity. }
          rewrite K3, last_last in I2. destruct l' as [|x l']; [destruct (map cs_start l); discriminate|]. cbn [s cs_start] in I2.
          apply (taken_new reso _ name from v nodes t Hv Ev); [|exact I2]. intros w Hw. destruct l as [|a l]; [discriminate|]. injection Hw as <-.
          destruct G as (_ & _ & G3). destruct (link_spec s eq_refl eq_refl _ _ G3 El) as (_ & _ & _ & L4). apply L4. discriminate.
        * cbn [bind fst snd] in H. apply bind_ok in H as ((r', e'') & Hl & H). cbn [fst snd] in H. injection H as <- _.
          destruct (IH l r' e'' G Hl) as (t & I1 & I2). exists t. split; [exact I1|]. apply link_none in El as (N1 & N2).
          destruct l as [|a l]; [congruence|]. apply (taken_low reso _ name from v nodes t Hv Ev N2 I2).
      + apply bind_ok in H as ((r', e'') & Hl & H). cbn [fst snd] in H. injection H as <- _.
        destruct (IH l r' e'' G Hl) as (t & I1 & I2). exists t. split; [exact I1|]. apply (taken_bad reso _ name from v nodes t Hv Ev I2). }
  destruct (K nodes [] r e' (good_nil _) H1) as (t & T1 & T2). cbn [map app] in T1. rewrite T1. exact T2.
Qed.
Print Assumptions C47_physical.
Example C47_case : read_sets false 1 [(T"a", T"10/1"); (T"b", T"10/1"); (T"c", T"300/1"); (T"d", T"20/1")]
    = Ok ([mkSet (T"a") 10 19 true; mkSet (T"d") 20 no_end false], 2)
  /\ read_sets true 2 [(T"a", T"65534/2"); (T"b", T"65535/2"); (T"c", T"65535/2")]
    = Ok ([mkSet (T"a") 65533 65533 true; mkSet (T"b") 65534 65534 true; mkSet (T"c") 65535 no_end false], 0).
Proof. split; vm_compute; reflexivity. Qed.
