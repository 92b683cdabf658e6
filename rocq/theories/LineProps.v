(** Properties C131 and C132: lines in the plane (LineModel.v). *)
From Coq Require Import Reals Bool Lra Psatz Nsatz.
From Verif Require Import TransModel TransProps LineModel.
Local Open Scope R_scope.

(** ** Lines, segments, sides *)
Definition at_param (a b : p2) (t : R) (q : p2) : Prop := vx q = vx a + t * (vx b - vx a) /\ vy q = vy a + t * (vy b - vy a).
Definition on_line (q a b : p2) : Prop := exists t, at_param a b t q.
Definition on_segment (q a b : p2) : Prop := exists t, 0 <= t <= 1 /\ at_param a b t q.
(** Twice the signed area between two vectors. *)
Definition area2 (a b c d : p2) : R := (vx b - vx a) * (vy d - vy c) - (vy b - vy a) * (vx d - vx c).
Definition sq_dist (p q : p2) : R := (vx p - vx q)² + (vy p - vy q)².

Lemma p2_eq a b : vx a = vx b -> vy a = vy b -> a = b.
Proof. destruct a, b. cbn. intros -> ->. reflexivity. Qed.
Lemma ltb_dec a b : {ltb a b = true /\ a < b} + {ltb a b = false /\ b <= a}.
Proof. destruct (ltb a b) eqn:E; [left|right]; split; try reflexivity; [apply ltb_true|apply ltb_false]; exact E. Qed.
Lemma cross_of_area a b c d : cross_of a b c d = area2 a b c d.
Proof. unfold cross_of, area2. ring. Qed.

(** ** C131: lines *)
(** The parameters at which two lines cross are the only ones. *)
Lemma params_unique a b c d q s t : area2 a b c d <> 0 -> at_param a b s q -> at_param c d t q ->
  s = ((vx d - vx c) * (vy a - vy c) - (vy d - vy c) * (vx a - vx c)) / area2 a b c d /\
  t = ((vx b - vx a) * (vy a - vy c) - (vy b - vy a) * (vx a - vx c)) / area2 a b c d.
Proof.
  unfold at_param. intros H (A1 & A2) (B1 & B2). rewrite B1 in A1. rewrite B2 in A2. clear B1 B2.
  assert (X : vx a - vx c = t * (vx d - vx c) - s * (vx b - vx a)) by lra. assert (Y : vy a - vy c = t * (vy d - vy c) - s * (vy b - vy a)) by lra.
  rewrite X, Y. unfold area2 in *. split; field_simplify_eq; try exact H; ring.
Qed.
Lemma params_exist a b c d : area2 a b c d <> 0 ->
  let ua := ((vx d - vx c) * (vy a - vy c) - (vy d - vy c) * (vx a - vx c)) / area2 a b c d in
  let ub := ((vx b - vx a) * (vy a - vy c) - (vy b - vy a) * (vx a - vx c)) / area2 a b c d in
  at_param a b ua (P2 (vx a + ua * (vx b - vx a)) (vy a + ua * (vy b - vy a))) /\
  at_param c d ub (P2 (vx a + ua * (vx b - vx a)) (vy a + ua * (vy b - vy a))).
Proof. intros H ua ub. unfold at_param. cbn [vx vy]. repeat split; unfold ua, ub, area2 in *; field_simplify_eq; try exact H; ring. Qed.

Definition far_from_zero (eps x : R) : Prop := eps < Rabs x.
Lemma far_nonzero eps x : 0 <= eps -> far_from_zero eps x -> x <> 0.
Proof. unfold far_from_zero. intros H F ->. rewrite Rabs_R0 in F. lra. Qed.
Lemma intersect_far a b c d eps : far_from_zero eps (area2 a b c d) -> intersect_lines a b c d eps = crossing_at a b c d (area2 a b c d) eps.
Proof. intros H. unfold intersect_lines. rewrite cross_of_area, abs_Rabs. rewrite (proj2 (ltb_true eps (Rabs (area2 a b c d)))) by exact H. reflexivity. Qed.

(** Lines count as parallel exactly if the area between their vectors is at most epsilon, and a point is given exactly if they
    do not. *)
Theorem C131_parallel : forall a b c d eps, (c_parallel (intersect_lines a b c d eps) = true <-> Rabs (area2 a b c d) <= eps) /\
  (c_point (intersect_lines a b c d eps) = None <-> Rabs (area2 a b c d) <= eps).
Proof.
  intros a b c d eps. unfold intersect_lines. rewrite cross_of_area, abs_Rabs. destruct (ltb_dec eps (Rabs (area2 a b c d))) as [[-> H]|[-> H]]; cbn; split; split; intros; try assumption; try reflexivity; try discriminate; lra.
Qed.
(** The point is the only common point of the two lines. *)
Theorem C131_point : forall a b c d eps q, 0 <= eps -> c_point (intersect_lines a b c d eps) = Some q ->
  on_line q a b /\ on_line q c d /\ forall q', on_line q' a b -> on_line q' c d -> q' = q.
Proof.
  intros a b c d eps q He H. assert (F : far_from_zero eps (area2 a b c d)).
  { unfold far_from_zero. destruct (Rle_or_lt (Rabs (area2 a b c d)) eps) as [L|L]; [|exact L]. apply (C131_parallel a b c d eps) in L. congruence. }
  rewrite intersect_far in H by exact F. apply far_nonzero in F; [|exact He]. unfold crossing_at in H. cbn [c_point] in H. injection H as <-.
  destruct (params_exist a b c d F) as (A & B). split; [eexists; exact A|]. split; [eexists; exact B|].
  intros q' (s & Hs) (t & Ht). destruct (params_unique a b c d q' s t F Hs Ht) as (-> & _). destruct Hs as (X & Y). apply p2_eq; cbn [vx vy]; assumption.
Qed.
(** The flags say where the point is on the two lines, up to epsilon. *)
Theorem C131_flags : forall a b c d eps q s t, 0 <= eps -> c_point (intersect_lines a b c d eps) = Some q -> at_param a b s q -> at_param c d t q ->
  let r := intersect_lines a b c d eps in
  (c_on1 r = true <-> - eps < s < 1 + eps) /\ (c_on2 r = true <-> - eps < t < 1 + eps) /\
  (c_seg1_start r = true <-> - eps < s < eps) /\ (c_seg1_end r = true <-> 1 - eps < s < 1 + eps).
Proof.
  intros a b c d eps q s t He H Hs Ht. assert (F : far_from_zero eps (area2 a b c d)).
  { unfold far_from_zero. destruct (Rle_or_lt (Rabs (area2 a b c d)) eps) as [L|L]; [|exact L]. apply (C131_parallel a b c d eps) in L. congruence. }
  rewrite intersect_far by exact F. apply far_nonzero in F; [|exact He]. destruct (params_unique a b c d q s t F Hs Ht) as (Es & Et).
  unfold crossing_at. cbv zeta. rewrite <- Es, <- Et. cbn [c_on1 c_on2 c_seg1_start c_seg1_end]. rewrite !andb_true_iff, !ltb_true. repeat split; intros; lra.
Qed.
(** Segments with a common point that are not taken for parallel are found to have it. *)
Theorem C131_common : forall a b c d eps q, 0 < eps -> eps < Rabs (area2 a b c d) -> on_segment q a b -> on_segment q c d ->
  let r := intersect_lines a b c d eps in c_point r = Some q /\ c_on1 r = true /\ c_on2 r = true.
Proof.
  intros a b c d eps q He F (s & Bs & Hs) (t & Bt & Ht) r.
  destruct (c_point r) as [q'|] eqn:E; [|apply (proj2 (C131_parallel a b c d eps)) in E; lra].
  assert (q = q') as <-. { destruct (C131_point a b c d eps q' ltac:(lra) E) as (_ & _ & U). apply U; [exists s|exists t]; assumption. }
  destruct (C131_flags a b c d eps q s t ltac:(lra) E Hs Ht) as (A & B & _). split; [reflexivity|]. split; [apply A|apply B]; lra.
Qed.
Example C131_common_case : let r := intersect_lines (P2 0 0) (P2 4 4) (P2 0 2) (P2 2 0) s_epsilon in c_point r = Some (P2 1 1) /\ c_on1 r = true /\ c_on2 r = true.
Proof.
  apply C131_common; [unfold s_epsilon; lra| | |].
  - unfold area2; cbn [vx vy]. rewrite Rabs_left by lra. unfold s_epsilon. lra.
  - exists (1 / 4). split; [lra|]. split; cbn [vx vy]; lra.
  - exists (1 / 2). split; [lra|]. split; cbn [vx vy]; lra.
Qed.
(** But two short segments that cross at right angles count as parallel. *)
Theorem C131_parallel_refuted : exists a b c d q, on_segment q a b /\ on_segment q c d /\ dot2 (sub2 b a) (sub2 d c) = 0 /\ mag2 (sub2 b a) = mag2 (sub2 d c) /\ 0 < mag2 (sub2 b a) /\
  intersect_lines a b c d s_epsilon = no_crossing.
Proof.
  exists (P2 0 (/ 20000)), (P2 (/ 10000) (/ 20000)), (P2 (/ 20000) 0), (P2 (/ 20000) (/ 10000)), (P2 (/ 20000) (/ 20000)).
  split; [exists (/ 2); split; [lra|split; cbn [vx vy]; lra]|]. split; [exists (/ 2); split; [lra|split; cbn [vx vy]; lra]|].
  split; [unfold dot2, sub2; cbn [vx vy]; lra|]. split; [unfold mag2, sub2; cbn [vx vy]; lra|]. split; [unfold mag2, sub2; cbn [vx vy]; lra|].
  unfold intersect_lines. rewrite cross_of_area, abs_Rabs. rewrite (proj2 (ltb_false s_epsilon (Rabs (area2 (P2 0 (/ 20000)) (P2 (/ 10000) (/ 20000)) (P2 (/ 20000) 0) (P2 (/ 20000) (/ 10000)))))); [reflexivity|].
  unfold area2, s_epsilon. cbn [vx vy]. rewrite Rabs_pos_eq by lra. lra.
Qed.

(** The variant with two epsilons measures the angle: it does not depend on the lengths.  The sine of the angle is the area over
    the product of the lengths. *)
Theorem C131_stable : forall a b c d eps col, 0 < mag2 (sub2 d c) -> eps * eps < mag2 (sub2 b a) -> 0 <= eps -> 0 <= col ->
  exists r, intersect_lines_stable a b c d eps col = Some r /\
    (c_parallel r = true <-> Rabs (area2 a b c d) <= col * (sqrt (mag2 (sub2 b a)) * sqrt (mag2 (sub2 d c)))) /\
    (c_parallel r = false -> exists q, c_point r = Some q /\ on_line q a b /\ on_line q c d).
Proof.
  intros a b c d eps col H2 H1 He Hc. unfold intersect_lines_stable. rewrite (proj2 (ltb_true (eps * eps) (mag2 (sub2 b a)))) by exact H1. cbn [andb]. eexists. split; [reflexivity|].
  rewrite cross_of_area, abs_Rabs. set (l1 := mag2 (sub2 b a)) in *. set (l2 := mag2 (sub2 d c)) in *.
  assert (P1 : 0 < l1) by nra. rewrite sqrt_mult by lra. assert (S1 : 0 < sqrt l1) by (apply sqrt_lt_R0; lra). assert (S2 : 0 < sqrt l2) by (apply sqrt_lt_R0; lra).
  assert (P : 0 < sqrt l1 * sqrt l2) by (apply Rmult_lt_0_compat; assumption). set (p := sqrt l1 * sqrt l2) in *.
  assert (E : Rabs (area2 a b c d / p) = Rabs (area2 a b c d) / p). { unfold Rdiv. rewrite Rabs_mult, Rabs_inv, (Rabs_pos_eq p) by lra. reflexivity. }
  assert (M : Rabs (area2 a b c d) = Rabs (area2 a b c d / p) * p) by (rewrite E; field; lra).
  destruct (ltb_dec col (Rabs (area2 a b c d / p))) as [[-> L]|[-> L]]; cbn [c_parallel no_crossing crossing_at].
  - split.
    + split; [discriminate|]. intros K. rewrite M in K. nra.
    + intros _. assert (F : area2 a b c d <> 0). { intros Z. rewrite Z in L. unfold Rdiv in L. rewrite Rmult_0_l, Rabs_R0 in L. lra. }
      eexists. split; [reflexivity|]. destruct (params_exist a b c d F) as (A & B). split; eexists; [exact A|exact B].
  - split; [|discriminate]. split; [|reflexivity]. intros _. rewrite M. nra.
Qed.
(** If the first line is too short, nothing at all is stored. *)
Theorem C131_stable_short : forall a b c d eps col, mag2 (sub2 b a) <= eps * eps -> intersect_lines_stable a b c d eps col = None.
Proof. intros a b c d eps col H. unfold intersect_lines_stable. rewrite (proj2 (ltb_false (eps * eps) (mag2 (sub2 b a)))) by exact H. reflexivity. Qed.

(** *** Segments *)
Lemma lower_min a b : lower a b <= a /\ lower a b <= b. Proof. unfold lower. destruct (ltb_dec a b) as [[-> H]|[-> H]]; lra. Qed.
Lemma upper_max a b : a <= upper a b /\ b <= upper a b. Proof. unfold upper. destruct (ltb_dec a b) as [[-> H]|[-> H]]; lra. Qed.
Lemma param_range a b t x : 0 <= t <= 1 -> x = a + t * (b - a) -> lower a b <= x <= upper a b.
Proof. intros Ht ->. unfold lower, upper. destruct (ltb_dec a b) as [[-> H]|[-> H]]; nra. Qed.
Lemma ge_ish_true a b eps : b <= a -> ge_ish a b eps = true.
Proof. intros H. unfold ge_ish. rewrite (proj2 (ltb_false a b)) by exact H. reflexivity. Qed.
Lemma le_ish_true a b eps : a <= b -> le_ish a b eps = true.
Proof. intros H. unfold le_ish. rewrite (proj2 (ltb_false b a)) by exact H. reflexivity. Qed.
(** Segments with a common point pass the test of their bounds. *)
Theorem C131_bounds : forall a b c d eps q, on_segment q a b -> on_segment q c d -> bounds_meet a b c d eps = true.
Proof.
  intros a b c d eps q (s & Bs & Xs & Ys) (t & Bt & Xt & Yt). unfold bounds_meet.
  pose proof (param_range _ _ _ _ Bs Xs). pose proof (param_range _ _ _ _ Bs Ys). pose proof (param_range _ _ _ _ Bt Xt). pose proof (param_range _ _ _ _ Bt Yt).
  rewrite !ge_ish_true, !le_ish_true by lra. reflexivity.
Qed.
(** Segments with bounds further apart than epsilon do not. *)
Theorem C131_bounds_apart : forall a b c d eps, 0 <= eps ->
  (vx a + eps <= vx c /\ vx b + eps <= vx c /\ vx a + eps <= vx d /\ vx b + eps <= vx d /\ Rmax (vx a) (vx b) < Rmin (vx c) (vx d) \/
   vy a + eps <= vy c /\ vy b + eps <= vy c /\ vy a + eps <= vy d /\ vy b + eps <= vy d /\ Rmax (vy a) (vy b) < Rmin (vy c) (vy d)) ->
  bounds_meet a b c d eps = false /\ bounds_meet c d a b eps = false.
Proof.
  assert (G : forall x y z w eps, x + eps <= z -> y + eps <= z -> x + eps <= w -> y + eps <= w -> Rmax x y < Rmin z w ->
    ge_ish (upper x y) (lower z w) eps = false /\ le_ish (lower z w) (upper x y) eps = false).
  { intros x y z w eps H1 H2 H3 H4 H5. pose proof (Rmax_l x y). pose proof (Rmax_r x y). pose proof (Rmin_l z w). pose proof (Rmin_r z w).
    unfold ge_ish, le_ish, upper, lower. destruct (ltb_dec x y) as [[-> L]|[-> L]], (ltb_dec z w) as [[-> K]|[-> K]];
      rewrite ?(proj2 (ltb_true _ _)) by lra; rewrite ?(proj2 (ltb_false _ _)) by lra; split; reflexivity. }
  intros a b c d eps He [(H1 & H2 & H3 & H4 & H5)|(H1 & H2 & H3 & H4 & H5)]; destruct (G _ _ _ _ eps H1 H2 H3 H4 H5) as (A & B); unfold bounds_meet; rewrite A || rewrite B; rewrite ?A, ?B; rewrite ?andb_false_r; split; reflexivity.
Qed.
Lemma mul_inv x t : x * (1 / t) = x / t. Proof. unfold Rdiv. ring. Qed.
(** The function with the point finds the common point of two segments. *)
Theorem C131_meet_at : forall a b c d eps q, 0 < eps -> eps < Rabs (area2 a b c d) -> on_segment q a b -> on_segment q c d ->
  exists par, segments_meet_at a b c d eps = (true, Some q, Some par).
Proof.
  intros a b c d eps q He F Sa Sc. pose proof (C131_bounds a b c d eps q Sa Sc) as Bo. destruct Sa as (s & Bs & Hs), Sc as (t & Bt & Ht).
  unfold segments_meet_at. rewrite Bo, cross_of_area, abs_Rabs. rewrite (proj2 (ltb_true eps (Rabs (area2 a b c d)))) by exact F. cbv zeta. rewrite !mul_inv.
  destruct (params_unique a b c d q s t (far_nonzero eps _ ltac:(lra) F) Hs Ht) as (<- & <-).
  rewrite (proj2 (ltb_true (- eps) s)), (proj2 (ltb_true s (1 + eps))), (proj2 (ltb_true (- eps) t)), (proj2 (ltb_true t (1 + eps))) by lra. cbn [andb].
  eexists. f_equal. f_equal. f_equal. symmetry. destruct Hs. apply p2_eq; cbn [vx vy]; assumption.
Qed.
(** The flag for parallel segments is set exactly if both segments start where they cross, up to epsilon. *)
Theorem C131_meet_flag : forall a b c d eps q s t, 0 < eps -> eps < Rabs (area2 a b c d) -> 0 <= s <= 1 -> 0 <= t <= 1 -> at_param a b s q -> at_param c d t q ->
  exists f, snd (segments_meet_at a b c d eps) = Some f /\ (f = true <-> s < eps /\ t < eps).
Proof.
  intros a b c d eps q s t He Hf Hs Ht As At. assert (F : area2 a b c d <> 0) by (apply (far_nonzero eps); [lra|exact Hf]).
  destruct (params_unique a b c d q s t F As At) as (Es & Et). unfold segments_meet_at. rewrite (C131_bounds a b c d eps q) by (first [exists s; split; assumption|exists t; split; assumption]). cbv zeta.
  rewrite cross_of_area, !abs_Rabs, (proj2 (ltb_true eps (Rabs (area2 a b c d))) Hf), !mul_inv, <- Es, <- Et. cbn [snd]. eexists. split; [reflexivity|].
  rewrite andb_true_iff, !ltb_true, !Rabs_pos_eq by lra. reflexivity.
Qed.
(** The function without it does, too, unless both segments start there. *)
Theorem C131_meet : forall a b c d eps q s t, 0 < eps -> eps < Rabs (area2 a b c d) -> 0 <= s <= 1 -> 0 <= t <= 1 -> at_param a b s q -> at_param c d t q ->
  segments_meet a b c d eps = true <-> eps < s \/ eps < t.
Proof.
  intros a b c d eps q s t He F Bs Bt Hs Ht. assert (Bo : bounds_meet a b c d eps = true) by (apply (C131_bounds a b c d eps q); [exists s|exists t]; split; assumption).
  unfold segments_meet. rewrite Bo, cross_of_area, abs_Rabs. rewrite (proj2 (ltb_true eps (Rabs (area2 a b c d)))) by exact F. cbv zeta. rewrite !mul_inv.
  destruct (params_unique a b c d q s t (far_nonzero eps _ ltac:(lra) F) Hs Ht) as (<- & <-).
  rewrite (proj2 (ltb_true (- eps) s)), (proj2 (ltb_true s (1 + eps))), (proj2 (ltb_true (- eps) t)), (proj2 (ltb_true t (1 + eps))) by lra. cbn [andb].
  rewrite !abs_Rabs, (Rabs_pos_eq s), (Rabs_pos_eq t) by lra. rewrite andb_true_r, orb_true_iff, !ltb_true. reflexivity.
Qed.
(** Two segments that start at one point are said not to meet by one function, and to meet but be parallel by the other. *)
Theorem C131_meet_refuted : exists a b c d q, on_segment q a b /\ on_segment q c d /\ dot2 (sub2 b a) (sub2 d c) = 0 /\
  segments_meet a b c d s_epsilon = false /\ segments_meet_at a b c d s_epsilon = (true, Some q, Some true).
Proof.
  exists (P2 1 1), (P2 3 1), (P2 1 1), (P2 1 4), (P2 1 1).
  assert (A : at_param (P2 1 1) (P2 3 1) 0 (P2 1 1)) by (split; cbn [vx vy]; lra). assert (B : at_param (P2 1 1) (P2 1 4) 0 (P2 1 1)) by (split; cbn [vx vy]; lra).
  assert (Ar : area2 (P2 1 1) (P2 3 1) (P2 1 1) (P2 1 4) = 6) by (unfold area2; cbn [vx vy]; lra).
  assert (F : s_epsilon < Rabs (area2 (P2 1 1) (P2 3 1) (P2 1 1) (P2 1 4))) by (rewrite Ar, Rabs_pos_eq by lra; unfold s_epsilon; lra).
  assert (He : 0 < s_epsilon) by (unfold s_epsilon; lra). assert (Z : 0 <= 0 <= 1) by lra.
  split; [exists 0; split; [lra|exact A]|]. split; [exists 0; split; [lra|exact B]|]. split; [unfold dot2, sub2; cbn [vx vy]; lra|]. split.
  - destruct (segments_meet _ _ _ _ _) eqn:E; [|reflexivity]. apply (C131_meet _ _ _ _ _ (P2 1 1) 0 0 He F Z Z A B) in E. lra.
  - pose proof (C131_bounds _ _ _ _ s_epsilon (P2 1 1) (ex_intro _ 0 (conj Z A)) (ex_intro _ 0 (conj Z B))) as Bo. unfold segments_meet_at. rewrite Bo, cross_of_area, abs_Rabs.
    rewrite (proj2 (ltb_true s_epsilon _)) by exact F. cbv zeta. rewrite !mul_inv.
    destruct (params_unique _ _ _ _ _ 0 0 (far_nonzero s_epsilon _ ltac:(lra) F) A B) as (<- & <-).
    rewrite (proj2 (ltb_true (- s_epsilon) 0)), (proj2 (ltb_true 0 (1 + s_epsilon))) by lra. rewrite abs_Rabs, Rabs_R0, (proj2 (ltb_true 0 s_epsilon)) by lra. cbn [andb].
    f_equal. f_equal. f_equal. apply p2_eq; cbn [vx vy]; lra.
Qed.
(** What is said to meet has a common point, up to epsilon. *)
Theorem C131_meet_sound : forall a b c d eps, 0 <= eps -> segments_meet a b c d eps = true \/ fst (fst (segments_meet_at a b c d eps)) = true ->
  exists q s t, at_param a b s q /\ at_param c d t q /\ - eps < s < 1 + eps /\ - eps < t < 1 + eps.
Proof.
  intros a b c d eps He H. assert (K : eps < Rabs (area2 a b c d) /\
    (let ua := ((vx d - vx c) * (vy a - vy c) - (vy d - vy c) * (vx a - vx c)) / area2 a b c d in
     let ub := ((vx b - vx a) * (vy a - vy c) - (vy b - vy a) * (vx a - vx c)) / area2 a b c d in - eps < ua < 1 + eps /\ - eps < ub < 1 + eps)).
  { destruct H as [H|H].
    - unfold segments_meet in H. rewrite cross_of_area, abs_Rabs in H. cbv zeta in H. rewrite !mul_inv in H. rewrite !andb_true_iff, !ltb_true in H. cbv zeta. tauto.
    - unfold segments_meet_at in H. destruct (bounds_meet a b c d eps); [|discriminate]. rewrite cross_of_area, abs_Rabs in H. destruct (ltb_dec eps (Rabs (area2 a b c d))) as [[E L]|[E L]]; rewrite E in H; [|discriminate].
      cbv zeta in H. cbn [fst] in H. rewrite !mul_inv in H. rewrite !andb_true_iff, !ltb_true in H. cbv zeta. tauto. }
  destruct K as (F & Bs & Bt). destruct (params_exist a b c d (far_nonzero eps _ He F)) as (A & B). eexists. eexists. eexists. split; [exact A|]. split; [exact B|]. split; assumption.
Qed.

(** *** Sides *)
Theorem C131_left : forall p a b, on_left p a b = true <-> 0 <= area2 a b a p.
Proof. intros p a b. unfold on_left, area2. match goal with |- context [ltb ?x ?y] => destruct (ltb_dec x y) as [[-> H]|[-> H]] end; cbn [negb]; split; intros; try reflexivity; try discriminate; lra. Qed.
Lemma norm2_pos v : 0 < mag2 v -> exists k, 0 < k /\ vx (norm2 v) = k * vx v /\ vy (norm2 v) = k * vy v /\ mag2 (norm2 v) = 1.
Proof.
  intros H. assert (L : 0 < len2 v) by (apply sqrt_lt_R0, H). unfold norm2. cbv zeta. rewrite (proj2 (ltb_true 0 (len2 v))) by exact L. exists (/ len2 v). cbn [vx vy].
  split; [apply Rinv_0_lt_compat, L|]. split; [field; lra|]. split; [field; lra|].
  assert (Q : len2 v * len2 v = vx v * vx v + vy v * vy v). { unfold len2. rewrite sqrt_sqrt by lra. reflexivity. } set (l := len2 v) in *. unfold mag2. cbn [vx vy].
  replace (vx v / l * (vx v / l) + vy v / l * (vy v / l)) with ((vx v * vx v + vy v * vy v) / (l * l)) by (field; lra). rewrite <- Q. field. lra.
Qed.
Lemma sum_sq_pos x y : x <> 0 \/ y <> 0 -> 0 < x * x + y * y.
Proof.
  pose proof (Rle_0_sqr x) as A. pose proof (Rle_0_sqr y) as B. unfold Rsqr in *. intros [H|H]; apply Rsqr_pos_lt in H; unfold Rsqr in H; lra.
Qed.
Lemma normal_pos s e : s <> e -> 0 < mag2 (P2 (- vy (sub2 e s)) (vx (sub2 e s))).
Proof.
  intros Hn. unfold mag2, sub2. cbn [vx vy]. apply sum_sq_pos. destruct (Req_dec (vx e) (vx s)) as [X|X]; [|right; lra].
  destruct (Req_dec (vy e) (vy s)) as [Y|Y]; [destruct Hn; apply p2_eq; congruence|left; lra].
Qed.
(** The equation of a line has a normal of length 1 and holds exactly for its points. *)
Theorem C131_equation : forall s e A B C, s <> e -> line_equation s e = (A, B, C) -> A * A + B * B = 1 /\ forall q, A * vx q + B * vy q + C = 0 <-> on_line q s e.
Proof.
  intros s e A B C Hn E. assert (M : 0 < mag2 (P2 (- vy (sub2 e s)) (vx (sub2 e s)))).
  { apply normal_pos, Hn. }
  unfold line_equation in E. cbv zeta in E. destruct (norm2_pos _ M) as (k & Hk & X & Y & One). rewrite X, Y in E. unfold mag2 in One at 1. rewrite X, Y in One.
  unfold sub2 in *. cbn [vx vy] in *. injection E as <- <- <-. unfold mag2 in M. cbn [vx vy] in M. split; [lra|]. intros q. split.
  - intros Z. set (dx := vx e - vx s) in *. set (dy := vy e - vy s) in *. assert (W : dx * (vy q - vy s) = dy * (vx q - vx s)) by (apply (Rmult_eq_reg_l k); lra).
    exists ((dx * (vx q - vx s) + dy * (vy q - vy s)) / (dx * dx + dy * dy)). assert (D0 : dx * dx + dy * dy <> 0) by lra.
    assert (E1 : (dx * (vx q - vx s) + dy * (vy q - vy s)) * dx = (vx q - vx s) * (dx * dx + dy * dy)) by (replace ((dx * (vx q - vx s) + dy * (vy q - vy s)) * dx) with (dx * dx * (vx q - vx s) + dy * (dx * (vy q - vy s))) by ring; rewrite W; ring).
    assert (E2 : (dx * (vx q - vx s) + dy * (vy q - vy s)) * dy = (vy q - vy s) * (dx * dx + dy * dy)) by (replace ((dx * (vx q - vx s) + dy * (vy q - vy s)) * dy) with (dx * (dy * (vx q - vx s)) + dy * dy * (vy q - vy s)) by ring; rewrite <- W; ring).
    split; fold dx dy; unfold Rdiv.
    + replace ((dx * (vx q - vx s) + dy * (vy q - vy s)) * / (dx * dx + dy * dy) * dx) with ((dx * (vx q - vx s) + dy * (vy q - vy s)) * dx * / (dx * dx + dy * dy)) by ring. rewrite E1. field. exact D0.
    + replace ((dx * (vx q - vx s) + dy * (vy q - vy s)) * / (dx * dx + dy * dy) * dy) with ((dx * (vx q - vx s) + dy * (vy q - vy s)) * dy * / (dx * dx + dy * dy)) by ring. rewrite E2. field. exact D0.
  - intros (t & Xq & Yq). rewrite Xq, Yq. ring.
Qed.
(** Two points are on one side exactly if the areas have one sign, where points of the line count as being on its left. *)
Theorem C131_same_side : forall s e a b, s <> e -> same_side s e a b = true <-> (0 <= area2 s e s a <-> 0 <= area2 s e s b).
Proof.
  intros s e a b Hn. assert (M : 0 < mag2 (P2 (- vy (sub2 e s)) (vx (sub2 e s)))).
  { apply normal_pos, Hn. }
  unfold same_side, line_equation. cbv zeta. destruct (norm2_pos _ M) as (k & Hk & X & Y & _). rewrite X, Y. clear X Y M. unfold sub2. cbn [vx vy].
  assert (G : forall p, k * - (vy e - vy s) * vx p + k * (vx e - vx s) * vy p + - (vx s * (k * - (vy e - vy s)) + vy s * (k * (vx e - vx s))) = k * area2 s e s p) by (intros p; unfold area2; ring).
  rewrite !G. generalize (area2 s e s a) (area2 s e s b). intros x y.
  destruct (ltb_dec (k * x) 0) as [[-> L]|[-> L]], (ltb_dec (k * y) 0) as [[-> K]|[-> K]]; cbn [negb eqb].
  - split; [intros _; split; intros; nra|reflexivity].
  - split; [discriminate|]. intros (_ & I). assert (0 <= y) by nra. apply I in H. nra.
  - split; [discriminate|]. intros (I & _). assert (0 <= x) by nra. apply I in H. nra.
  - split; [intros _; split; intros; nra|reflexivity].
Qed.

(** *** Turning *)
Theorem C131_rotate : forall p c a b, sq_dist (rotate_at p c a) c = sq_dist p c /\ rotate_at (rotate_at p c a) c b = rotate_at p c (a + b) /\ rotate_at p c 0 = p.
Proof.
  intros [x y] [u v] a b. unfold sq_dist, rotate_at. cbn [vx vy]. pose proof (sin2_cos2 a) as S. split; [|split].
  - unfold Rsqr in *. nsatz.
  - rewrite sin_plus, cos_plus. apply p2_eq; cbn [vx vy]; ring.
  - rewrite sin_0, cos_0. apply p2_eq; cbn [vx vy]; ring.
Qed.
(** Positive angles turn clockwise. *)
Theorem C131_rotate_clockwise : rotate_at (P2 1 0) (P2 0 0) (PI / 2) = P2 0 (-1).
Proof. unfold rotate_at. rewrite sin_PI2, cos_PI2. apply p2_eq; cbn [vx vy]; ring. Qed.

(** ** C132: distances *)
Definition len_sq (a b : p2) : R := (vx b - vx a) * (vx b - vx a) + (vy b - vy a) * (vy b - vy a).
Definition proj_dot (p a b : p2) : R := (vx b - vx a) * (vx p - vx a) + (vy b - vy a) * (vy p - vy a).
Lemma len_sq_nonneg a b : 0 <= len_sq a b.
Proof. unfold len_sq. pose proof (Rle_0_sqr (vx b - vx a)). pose proof (Rle_0_sqr (vy b - vy a)). unfold Rsqr in *. lra. Qed.
Lemma dist_param p a b t q : at_param a b t q -> sq_dist p q = sq_dist p a - 2 * t * proj_dot p a b + t * t * len_sq a b.
Proof. intros (X & Y). unfold sq_dist, proj_dot, len_sq, Rsqr. rewrite X, Y. ring. Qed.
Lemma dist2_sq_eq p q : dist2_sq p q = sq_dist p q.
Proof. unfold dist2_sq, mag2, sub2, sq_dist, Rsqr. cbn [vx vy]. ring. Qed.

Lemma project_param p a b : len_sq a b <> 0 -> at_param a b (proj_dot p a b / len_sq a b) (project p a b).
Proof. intros H. unfold project, at_param, proj_dot, len_sq in *. cbn [vx vy]. split; field; exact H. Qed.
(** The projection is on the line, perpendicular below the point, and no point of the line is closer. *)
Theorem C132_project : forall p a b, a <> b ->
  on_line (project p a b) a b /\ dot2 (sub2 b a) (sub2 p (project p a b)) = 0 /\ forall q, on_line q a b -> sq_dist p (project p a b) <= sq_dist p q.
Proof.
  intros p a b Hn. assert (M : 0 < len_sq a b).
  { unfold len_sq. apply sum_sq_pos. destruct (Req_dec (vx b) (vx a)) as [X|X]; [|left; lra]. destruct (Req_dec (vy b) (vy a)) as [Y|Y]; [destruct Hn; apply p2_eq; congruence|right; lra]. }
  pose proof (project_param p a b ltac:(lra)) as P. split; [eexists; exact P|]. split.
  - destruct P as (X & Y). unfold dot2, sub2. cbn [vx vy]. rewrite X, Y. unfold proj_dot, len_sq in *. field. lra.
  - intros q (t & Q). rewrite (dist_param p a b _ _ P), (dist_param p a b _ _ Q). set (m := len_sq a b) in *. set (d := proj_dot p a b).
    assert (E : d = d / m * m) by (field; lra). set (u := d / m) in *. rewrite E. pose proof (Rle_0_sqr (t - u)) as Z. unfold Rsqr in Z. nra.
Qed.
(** The distance of a point from a line is that to its projection, for lines that are not very short. *)
Theorem C132_distance : forall p a b, / 1000000 <= len_sq a b -> line_distance p a b = sqrt (sq_dist p (project p a b)).
Proof.
  intros p a b H. unfold line_distance. cbv zeta. fold (len_sq a b). pose proof (len_sq_nonneg a b). rewrite (proj2 (ltb_false (abs (len_sq a b)) (/ 1000000))) by (rewrite abs_Rabs, Rabs_pos_eq by lra; lra).
  rewrite abs_Rabs. set (k := (vx b - vx a) * (vy a - vy p) - (vx a - vx p) * (vy b - vy a)).
  assert (E : sq_dist p (project p a b) = (k / sqrt (len_sq a b))²).
  { rewrite (dist_param p a b _ _ (project_param p a b ltac:(lra))). unfold Rsqr. replace (k / sqrt (len_sq a b) * (k / sqrt (len_sq a b))) with (k * k / (sqrt (len_sq a b) * sqrt (len_sq a b))) by (field; apply Rgt_not_eq, sqrt_lt_R0; lra).
    rewrite sqrt_sqrt by lra. unfold sq_dist, Rsqr, k, proj_dot. set (m := len_sq a b). assert (Em : m = (vx b - vx a) * (vx b - vx a) + (vy b - vy a) * (vy b - vy a)) by reflexivity.
    field_simplify_eq; [|unfold m; lra]. rewrite Em. ring. }
  rewrite E, sqrt_Rsqr_abs. unfold Rdiv. rewrite Rabs_mult, Rabs_inv. rewrite (Rabs_pos_eq (sqrt (len_sq a b))) by apply sqrt_pos. reflexivity.
Qed.
(** Every point is said to be on a line that is shorter than 0.001. *)
Theorem C132_distance_refuted : exists p a b, a <> b /\ line_distance p a b = 0 /\ forall q, on_segment q a b -> 1 <= sq_dist p q.
Proof.
  exists (P2 0 1), (P2 0 0), (P2 (/ 10000) 0). split; [intros E; injection E; lra|]. split.
  - unfold line_distance. cbv zeta. cbn [vx vy]. rewrite abs_Rabs. match goal with |- context [ltb ?x ?y] => rewrite (proj2 (ltb_true x y)) end; [reflexivity|]. rewrite Rabs_pos_eq by lra. lra.
  - intros q (t & _ & X & Y). cbn [vx vy] in *. unfold sq_dist. cbn [vx vy]. rewrite Y. pose proof (Rle_0_sqr (0 - vx q)). unfold Rsqr in *. lra.
Qed.
(** The closest point of a segment: it is on the segment, its squared distance is the one given, and no point of the segment is
    closer.  This holds for segments of length 0, too. *)
Theorem C132_closest : forall p a b q d, closest p a b = (q, d) -> on_segment q a b /\ d = sq_dist p q /\ forall r, on_segment r a b -> d <= sq_dist p r.
Proof.
  intros p a b q d. unfold closest. cbv zeta. pose proof (C131_left p a (add2 a (perp (sub2 b a)))) as L1. pose proof (C131_left p b (add2 b (perp (sub2 b a)))) as L2.
  assert (E1 : area2 a (add2 a (perp (sub2 b a))) a p = proj_dot p a b) by (unfold area2, add2, perp, sub2, proj_dot; cbn [vx vy]; ring).
  assert (E2 : area2 b (add2 b (perp (sub2 b a))) b p = proj_dot p a b - len_sq a b) by (unfold area2, add2, perp, sub2, proj_dot, len_sq; cbn [vx vy]; ring).
  rewrite E1 in L1. rewrite E2 in L2. clear E1 E2. pose proof (len_sq_nonneg a b) as M. rewrite !dist2_sq_eq.
  assert (Pa : at_param a b 0 a) by (split; ring). assert (Pb : at_param a b 1 b) by (split; ring).
  pose proof (dist_param p a b 1 b Pb) as Db.
  assert (Out : forall t, 0 <= t <= 1 -> proj_dot p a b < 0 -> 0 <= - 2 * t * proj_dot p a b + t * t * len_sq a b) by (intros; nra).
  assert (Far : forall t, 0 <= t <= 1 -> len_sq a b <= proj_dot p a b -> len_sq a b - 2 * proj_dot p a b <= - 2 * t * proj_dot p a b + t * t * len_sq a b).
  { intros t Ht Hd. assert (0 <= (1 - t) * (2 * proj_dot p a b - (1 + t) * len_sq a b)) by (apply Rmult_le_pos; nra). nra. }
  destruct (on_left p a _) eqn:O1; [destruct (on_left p b _) eqn:O2|]; cbn [negb andb].
  - (* beyond the end *)
    apply proj1 in L1, L2. specialize (L1 eq_refl). specialize (L2 eq_refl). assert (sq_dist p b <= sq_dist p a) by lra. rewrite (proj2 (ltb_false (sq_dist p a) (sq_dist p b))) by assumption.
    intros H0. injection H0 as <- <-. split; [exists 1; split; [lra|exact Pb]|]. split; [reflexivity|]. intros r (t & Ht & Hr). rewrite (dist_param p a b t r Hr). specialize (Far t Ht ltac:(lra)). lra.
  - (* above the segment *)
    assert (D1 : 0 <= proj_dot p a b) by (apply L1; reflexivity). assert (D2 : proj_dot p a b < len_sq a b). { destruct (Rlt_or_le (proj_dot p a b) (len_sq a b)) as [K|K]; [exact K|]. assert (false = true) by (apply L2; lra). discriminate. }
    set (c := dot2 (sub2 b a) (sub2 p a) / mag2 (sub2 b a)). assert (Ec : c = proj_dot p a b / len_sq a b) by reflexivity.
    set (z := add2 (scale2 a (1 - c)) (scale2 b c)). assert (Pz : at_param a b c z) by (unfold z, at_param, add2, scale2; cbn [vx vy]; split; ring).
    intros H0. injection H0 as <- <-. assert (C : 0 <= c <= 1 /\ c * len_sq a b = proj_dot p a b).
    { rewrite Ec. split; [|field; lra]. split; [apply Rmult_le_pos; [exact D1|left; apply Rinv_0_lt_compat; lra]|]. apply (Rmult_le_reg_r (len_sq a b)); [lra|]. unfold Rdiv. rewrite Rmult_assoc, Rinv_l by lra. lra. }
    split; [exists c; split; [apply C|exact Pz]|]. split; [reflexivity|]. intros r (t & Ht & Hr). rewrite (dist_param p a b t r Hr), (dist_param p a b c z Pz). destruct C as (_ & C). rewrite <- C.
    pose proof (Rle_0_sqr (t - c)) as Z. unfold Rsqr in Z. assert (0 <= (t - c) * (t - c) * len_sq a b) by (apply Rmult_le_pos; assumption). nra.
  - (* before the start *)
    assert (D1 : proj_dot p a b < 0). { destruct (Rlt_or_le (proj_dot p a b) 0) as [K|K]; [exact K|]. assert (false = true) by (apply L1; lra). discriminate. }
    rewrite (proj2 (ltb_true (sq_dist p a) (sq_dist p b))) by lra. intros H0. injection H0 as <- <-. split; [exists 0; split; [lra|exact Pa]|]. split; [reflexivity|]. intros r (t & Ht & Hr). rewrite (dist_param p a b t r Hr). specialize (Out t Ht D1). lra.
Qed.
Example C132_closest_case : closest (P2 1 5) (P2 0 0) (P2 2 0) = (P2 1 0, 25).
Proof.
  destruct (closest (P2 1 5) (P2 0 0) (P2 2 0)) as (q, d) eqn:E. destruct (C132_closest _ _ _ _ _ E) as ((t & Ht & X & Y) & D & Mi). cbn [vx vy] in *.
  assert (S : on_segment (P2 1 0) (P2 0 0) (P2 2 0)) by (exists (/ 2); split; [lra|split; cbn [vx vy]; lra]). specialize (Mi _ S). subst d. unfold sq_dist, Rsqr in *. cbn [vx vy] in *.
  assert (vx q = 1) by nra. assert (vy q = 0) by lra. f_equal; [apply p2_eq; assumption|]. rewrite H, H0. ring.
Qed.
(** The function with one argument gives the closest point if the point is no further from either end than they are from each
    other, provided the projection is right. *)
Theorem C132_closest1_near : forall p a b, a <> b -> dist2 p a <= dist2 b a -> dist2 p b <= dist2 b a ->
  on_segment (closest1 project p a b) a b /\ forall r, on_segment r a b -> sq_dist p (closest1 project p a b) <= sq_dist p r.
Proof.
  intros p a b Hn Ha Hb. unfold closest1. cbv zeta. rewrite (proj2 (ltb_false (dist2 b a) (dist2 p a))), (proj2 (ltb_false (dist2 b a) (dist2 p b))) by assumption. cbn [negb andb].
  assert (M : 0 < len_sq a b).
  { unfold len_sq. apply sum_sq_pos. destruct (Req_dec (vx b) (vx a)) as [X|X]; [|left; lra]. destruct (Req_dec (vy b) (vy a)) as [Y|Y]; [destruct Hn; apply p2_eq; congruence|right; lra]. }
  assert (Q : forall u v, mag2 (sub2 v u) = sq_dist u v) by (intros; unfold mag2, sub2, sq_dist, Rsqr; cbn [vx vy]; ring).
  assert (Sq : forall u v, 0 <= sq_dist u v) by (intros u v; unfold sq_dist; pose proof (Rle_0_sqr (vx u - vx v)); pose proof (Rle_0_sqr (vy u - vy v)); lra).
  unfold dist2 in Ha, Hb. rewrite !Q in Ha, Hb. apply sqrt_le_0 in Ha; [|apply Sq|apply Sq]. apply sqrt_le_0 in Hb; [|apply Sq|apply Sq].
  assert (Lb : sq_dist b a = len_sq a b) by (unfold sq_dist, len_sq, Rsqr; ring). rewrite Lb in Ha, Hb.
  assert (Pb : at_param a b 1 b) by (split; ring). pose proof (dist_param p a b 1 b Pb) as Db. pose proof (Sq p a). pose proof (Sq p b).
  pose proof (project_param p a b ltac:(lra)) as P. destruct (C132_project p a b Hn) as (_ & _ & Mi). split.
  - exists (proj_dot p a b / len_sq a b). split; [|exact P]. split; [apply Rmult_le_pos; [lra|left; apply Rinv_0_lt_compat; lra]|]. apply (Rmult_le_reg_r (len_sq a b)); [lra|]. unfold Rdiv. rewrite Rmult_assoc, Rinv_l by lra. lra.
  - intros r (t & _ & Hr). apply Mi. exists t. exact Hr.
Qed.
(** For a point that is further from one of the ends than the line is long it gives the closer end. *)
Theorem C132_closest1_far : forall proj p a b, dist2 b a < dist2 p a \/ dist2 b a < dist2 p b ->
  let q := closest1 proj p a b in (q = a \/ q = b) /\ dist2 p q <= dist2 p a /\ dist2 p q <= dist2 p b.
Proof.
  intros proj p a b H. cbv zeta. unfold closest1. cbv zeta.
  assert (E : negb (ltb (dist2 b a) (dist2 p a)) && negb (ltb (dist2 b a) (dist2 p b)) = false) by (destruct H as [H|H]; [rewrite (proj2 (ltb_true _ _) H)|rewrite (proj2 (ltb_true (dist2 b a) (dist2 p b)) H), andb_false_r]; reflexivity).
  rewrite E. destruct (ltb_dec (dist2 p a) (dist2 p b)) as [[-> L]|[-> L]]; (split; [auto|]); lra.
Qed.
(** For a point further away it gives an end, though a point between the ends is closer. *)
Theorem C132_closest1_refuted : exists p a b r, on_segment r a b /\ forall proj, sq_dist p r < sq_dist p (closest1 proj p a b).
Proof.
  exists (P2 1 5), (P2 0 0), (P2 2 0), (P2 1 0). split; [exists (/ 2); split; [lra|split; cbn [vx vy]; lra]|]. intros proj. unfold closest1. cbv zeta.
  rewrite (proj2 (ltb_true (dist2 (P2 2 0) (P2 0 0)) (dist2 (P2 1 5) (P2 0 0)))) by (unfold dist2, mag2, sub2; cbn [vx vy]; apply sqrt_lt_1; lra). cbn [negb andb].
  destruct (ltb _ _); unfold sq_dist, Rsqr; cbn [vx vy]; lra.
Qed.
Print Assumptions C131_parallel.
Print Assumptions C131_point.
Print Assumptions C131_flags.
Print Assumptions C131_common.
Print Assumptions C131_parallel_refuted.
Print Assumptions C131_stable.
Print Assumptions C131_stable_short.
Print Assumptions C131_bounds.
Print Assumptions C131_bounds_apart.
Print Assumptions C131_meet_at.
Print Assumptions C131_meet_flag.
Print Assumptions C131_meet.
Print Assumptions C131_meet_refuted.
Print Assumptions C131_meet_sound.
Print Assumptions C131_left.
Print Assumptions C131_equation.
Print Assumptions C131_same_side.
Print Assumptions C131_rotate.
Print Assumptions C131_rotate_clockwise.
Print Assumptions C132_project.
Print Assumptions C132_distance.
Print Assumptions C132_distance_refuted.
Print Assumptions C132_closest.
Print Assumptions C132_closest1_near.
Print Assumptions C132_closest1_far.
Print Assumptions C132_closest1_refuted.
