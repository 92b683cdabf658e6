(** Properties C133 and C134: angles and coordinates relative to a line (AngleModel.v). *)
From Coq Require Import Reals Bool Lra Psatz Nsatz.
From Verif Require Import TransModel TransProps LineModel LineProps AngleModel.
Local Open Scope R_scope.

(** ** C133: angles *)
Lemma deg_rad x : x * deg * rad = x. Proof. unfold deg, rad. field. exact PI_neq0. Qed.
Lemma rad_pos : 0 < rad. Proof. unfold rad. pose proof PI_RGT_0. lra. Qed.
Lemma rad_180 : 180 * rad = PI. Proof. unfold rad. field. Qed.
Lemma is_zero_iff x : is_zero x = true <-> x = 0.
Proof. unfold is_zero. destruct (ltb_dec x 0) as [[-> H]|[-> H]], (ltb_dec 0 x) as [[-> H']|[-> H']]; cbn; split; intros; try discriminate; try reflexivity; lra. Qed.
Lemma is_zero_not x : x <> 0 -> is_zero x = false.
Proof. intros H. destruct (is_zero x) eqn:E; [apply is_zero_iff in E; contradiction|reflexivity]. Qed.

(** The meaning of an angle in degrees: the point in this direction at this distance. *)
Definition in_direction (p : p2) (a : R) : Prop := vx p = len2 p * cos (a * rad) /\ vy p = len2 p * sin (a * rad).

Lemma quarter_le n a odd : a <= 90 -> quarter n a odd = Some (a, odd).
Proof. intros H. destruct n; cbn [quarter]; rewrite (proj2 (ltb_false 90 a)) by lra; reflexivity. Qed.
Lemma quarter_gt n a odd : 90 < a -> quarter (S n) a odd = quarter n (a - 90) (negb odd).
Proof. intros H. cbn [quarter]. rewrite (proj2 (ltb_true 90 a)) by lra. reflexivity. Qed.
Lemma one_turn_range ang : -360 <= ang <= 720 -> 0 <= one_turn ang <= 360 /\ (one_turn ang = ang \/ one_turn ang = ang + 360 \/ one_turn ang = ang - 360).
Proof. intros H. unfold one_turn. destruct (ltb_dec ang 0) as [[-> A]|[-> A]]; destruct (ltb_dec 360 (ang + 360)) as [[E B]|[E B]]; rewrite ?E; try lra; destruct (ltb_dec 360 ang) as [[-> C]|[-> C]]; lra. Qed.
Lemma sin_turn ang a : a = ang \/ a = ang + 360 \/ a = ang - 360 -> sin (a * rad) = sin (ang * rad).
Proof.
  pose proof rad_180. intros [->|[->| ->]]; [reflexivity| |].
  - replace ((ang + 360) * rad) with (ang * rad + 2 * PI) by lra. rewrite sin_plus, sin_2PI, cos_2PI. ring.
  - replace ((ang - 360) * rad) with (ang * rad - 2 * PI) by lra. rewrite sin_minus, sin_2PI, cos_2PI. ring.
Qed.
Lemma cos_turn ang a : a = ang \/ a = ang + 360 \/ a = ang - 360 -> cos (a * rad) = cos (ang * rad).
Proof.
  pose proof rad_180. intros [->|[->| ->]]; [reflexivity| |].
  - replace ((ang + 360) * rad) with (ang * rad + 2 * PI) by lra. rewrite cos_plus, sin_2PI, cos_2PI. ring.
  - replace ((ang - 360) * rad) with (ang * rad - 2 * PI) by lra. rewrite cos_minus, sin_2PI, cos_2PI. ring.
Qed.
Lemma sin_nn n : 0 <= n <= 90 -> 0 <= sin (n * rad).
Proof. intros H. pose proof rad_180. pose proof rad_pos. apply sin_ge_0; nra. Qed.
Lemma cos_nn n : 0 <= n <= 90 -> 0 <= cos (n * rad).
Proof. intros H. pose proof rad_180. pose proof rad_pos. apply cos_ge_0; nra. Qed.

(** Between minus one turn and two turns the sine is right. *)
Theorem C133_sin : forall fuel ang, (3 <= fuel)%nat -> -360 <= ang <= 720 -> special_sin fuel ang = Some (sin (ang * rad)).
Proof.
  intros fuel ang Hf H. destruct (one_turn_range ang H) as (R & E). rewrite <- (sin_turn ang _ E). unfold special_sin. cbv zeta. set (a := one_turn ang) in *. clearbody a.
  destruct fuel as [|[|[|n]]]; try (exfalso; lia). pose proof rad_180 as K.
  rewrite (proj2 (ltb_false a 0)) by lra. cbn [negb andb].
  destruct (Rle_or_lt a 90) as [A|A]; [rewrite quarter_le by exact A|rewrite quarter_gt by exact A; destruct (Rle_or_lt (a - 90) 90) as [B|B]; [rewrite quarter_le by exact B|rewrite quarter_gt by exact B; destruct (Rle_or_lt (a - 90 - 90) 90) as [C|C]; [rewrite quarter_le by exact C|rewrite quarter_gt, quarter_le by lra]]];
    cbn [negb]; rewrite abs_Rabs.
  - rewrite (proj2 (ltb_false 180 a)) by lra. cbn [negb]. rewrite Rabs_pos_eq by (apply sin_nn; lra). reflexivity.
  - rewrite (proj2 (ltb_false 180 a)) by lra. cbn [negb]. rewrite Rabs_pos_eq by (apply sin_nn; lra). replace ((90 - (a - 90)) * rad) with (PI - a * rad) by lra. rewrite sin_PI_x. reflexivity.
  - rewrite (proj2 (ltb_true 180 a)) by lra. cbn [negb]. rewrite Rabs_pos_eq by (apply sin_nn; lra). replace ((a - 90 - 90) * rad) with (a * rad - PI) by lra. rewrite sin_minus, sin_PI, cos_PI. f_equal. ring.
  - rewrite (proj2 (ltb_true 180 a)) by lra. cbn [negb]. rewrite Rabs_pos_eq by (apply sin_nn; lra). replace ((90 - (a - 90 - 90 - 90)) * rad) with (2 * PI - a * rad) by lra. rewrite sin_minus, sin_2PI, cos_2PI. f_equal. ring.
Qed.
(** So is the cosine. *)
Theorem C133_cos : forall fuel ang, (3 <= fuel)%nat -> -360 <= ang <= 720 -> special_cos fuel ang = Some (cos (ang * rad)).
Proof.
  intros fuel ang Hf H. destruct (one_turn_range ang H) as (R & E). rewrite <- (cos_turn ang _ E). unfold special_cos. cbv zeta. set (a := one_turn ang) in *. clearbody a.
  destruct fuel as [|[|[|n]]]; try (exfalso; lia). pose proof rad_180 as K.
  rewrite (proj2 (ltb_false a 0)), (proj2 (ltb_false 360 a)) by lra. cbn [negb andb]. rewrite andb_true_r.
  destruct (Rle_or_lt a 90) as [A|A]; [rewrite quarter_le by exact A|rewrite quarter_gt by exact A; destruct (Rle_or_lt (a - 90) 90) as [B|B]; [rewrite quarter_le by exact B|rewrite quarter_gt by exact B; destruct (Rle_or_lt (a - 90 - 90) 90) as [C|C]; [rewrite quarter_le by exact C|rewrite quarter_gt, quarter_le by lra]]];
    cbn [negb]; rewrite abs_Rabs.
  - rewrite (proj2 (ltb_false 90 a)) by lra. cbn [negb orb]. rewrite Rabs_pos_eq by (apply cos_nn; lra). reflexivity.
  - rewrite (proj2 (ltb_true 90 a)), (proj2 (ltb_false (3 * 90) a)) by lra. cbn [negb orb]. rewrite Rabs_pos_eq by (apply cos_nn; lra). replace ((90 - (a - 90)) * rad) with (PI - a * rad) by lra. rewrite cos_minus, sin_PI, cos_PI. f_equal. ring.
  - rewrite (proj2 (ltb_true 90 a)), (proj2 (ltb_false (3 * 90) a)) by lra. cbn [negb orb]. rewrite Rabs_pos_eq by (apply cos_nn; lra). replace ((a - 90 - 90) * rad) with (a * rad - PI) by lra. rewrite cos_minus, sin_PI, cos_PI. f_equal. ring.
  - rewrite (proj2 (ltb_true 90 a)), (proj2 (ltb_true (3 * 90) a)) by lra. cbn [negb orb]. rewrite Rabs_pos_eq by (apply cos_nn; lra). replace ((90 - (a - 90 - 90 - 90)) * rad) with (2 * PI - a * rad) by lra. rewrite cos_minus, sin_2PI, cos_2PI. f_equal. ring.
Qed.
(** Further out the functions are not periodic: the sine of 800 degrees is positive and that of 80 degrees. *)
Theorem C133_sin_refuted : exists ang, special_sin 4 ang = Some (- sin (80 * rad)) /\ 0 < sin (80 * rad) /\ sin (ang * rad) = sin (80 * rad).
Proof.
  exists 800. pose proof rad_180 as K. pose proof rad_pos as P. assert (Q : 0 < sin (80 * rad)) by (apply sin_gt_0; lra). split; [|split; [exact Q|]].
  - unfold special_sin, one_turn. cbv zeta. rewrite (proj2 (ltb_false 800 0)) by lra. rewrite (proj2 (ltb_true 360 800)) by lra.
    do 4 (rewrite quarter_gt by lra). rewrite quarter_le by lra. cbn [negb]. rewrite (proj2 (ltb_true 180 (800 - 360))) by lra. rewrite andb_false_r, abs_Rabs.
    replace ((800 - 360 - 90 - 90 - 90 - 90) * rad) with (80 * rad) by lra. rewrite Rabs_pos_eq by lra. reflexivity.
  - replace (800 * rad) with (80 * rad + 2 * PI + 2 * PI) by lra. rewrite !sin_plus, !cos_plus, sin_2PI, cos_2PI. ring.
Qed.
(** The loop ends for every angle. *)
Theorem C133_ends : forall ang, exists fuel, special_sin fuel ang <> None /\ special_cos fuel ang <> None.
Proof.
  intros ang. assert (Q : forall n a odd, a <= 90 * (INR n + 1) -> quarter n a odd <> None).
  { induction n as [|n IH]; intros a odd H; cbn [quarter]; destruct (ltb_dec 90 a) as [[-> L]|[-> L]]; try discriminate; [cbn in H; lra|]. apply IH. rewrite S_INR in H. lra. }
  destruct (archimed (Rabs (one_turn ang))) as (A & _). assert (P : (0 <= up (Rabs (one_turn ang)))%Z) by (apply le_IZR; pose proof (Rabs_pos (one_turn ang)); lra).
  exists (Z.to_nat (up (Rabs (one_turn ang)))). assert (Z : quarter (Z.to_nat (up (Rabs (one_turn ang)))) (one_turn ang) false <> None).
  { apply Q. rewrite INR_IZR_INZ, Z2Nat.id by exact P. pose proof (Rle_abs (one_turn ang)). pose proof (Rabs_pos (one_turn ang)). lra. }
  unfold special_sin, special_cos. cbv zeta. destruct (quarter _ _ _) as [[? ?]|]; [split; discriminate|contradiction].
Qed.

Lemma len2_sq p : len2 p * len2 p = vx p * vx p + vy p * vy p.
Proof. unfold len2. apply sqrt_sqrt. unfold mag2. pose proof (Rle_0_sqr (vx p)). pose proof (Rle_0_sqr (vy p)). unfold Rsqr in *. lra. Qed.
Lemma len2_nn p : 0 <= len2 p. Proof. apply sqrt_pos. Qed.
Lemma tiny_pos : 0 < tiny. Proof. unfold tiny. lra. Qed.
Lemma not_nearly_zero n : tiny < n -> nearly_zero n = false.
Proof. intros H. unfold nearly_zero. pose proof tiny_pos. rewrite abs_Rabs, Rabs_pos_eq, (proj2 (ltb_true tiny n)) by lra. reflexivity. Qed.
Lemma nearly_zero_le n : 0 <= n <= tiny -> nearly_zero n = true.
Proof. intros H. unfold nearly_zero. rewrite abs_Rabs, Rabs_pos_eq, (proj2 (ltb_false tiny n)) by lra. reflexivity. Qed.

Lemma atan_of x y m : 0 < m -> x <> 0 -> m * m = x * x + y * y ->
  let t := atan (sqrt (1 - x / m * (x / m)) / (x / m)) in
  cos t = Rabs x / m /\ sin t = Rabs x / x * (Rabs y / m) /\ (0 < x -> 0 <= t < PI / 2) /\ (x < 0 -> - (PI / 2) < t <= 0) /\ (y <> 0 -> t <> 0) /\ (y = 0 -> t = 0).
Proof.
  intros Hm Hx E t. assert (S1 : sqrt (1 - x / m * (x / m)) = Rabs y / m).
  { replace (1 - x / m * (x / m)) with ((Rabs y / m)²). { apply sqrt_Rsqr. apply Rmult_le_pos; [apply Rabs_pos|left; apply Rinv_0_lt_compat; lra]. }
    unfold Rsqr. replace (Rabs y / m * (Rabs y / m)) with ((Rabs y * Rabs y) / (m * m)) by (field; lra). rewrite <- Rabs_mult, Rabs_pos_eq by (apply Rle_0_sqr). replace (y * y) with (m * m - x * x) by lra. field. lra. }
  assert (T0 : sqrt (1 - x / m * (x / m)) / (x / m) = Rabs y / x) by (rewrite S1; field; lra). unfold t. rewrite T0. clear t S1 T0.
  set (q := Rabs y / x). assert (Ax : 0 < Rabs x) by (apply Rabs_pos_lt; exact Hx).
  assert (S2 : sqrt (1 + q²) = m / Rabs x).
  { replace (1 + q²) with ((m / Rabs x)²). { apply sqrt_Rsqr. apply Rmult_le_pos; [lra|left; apply Rinv_0_lt_compat; lra]. }
    unfold Rsqr, q. replace (m / Rabs x * (m / Rabs x)) with ((m * m) / (Rabs x * Rabs x)) by (field; lra). replace (Rabs y / x * (Rabs y / x)) with ((Rabs y * Rabs y) / (x * x)) by (field; exact Hx).
    rewrite <- !Rabs_mult, !Rabs_pos_eq by (apply Rle_0_sqr). rewrite E. field. exact Hx. }
  assert (A0 : atan 0 = 0) by exact atan_0. pose proof (atan_bound q) as B. pose proof (Rabs_pos y) as Ay.
  split; [rewrite cos_atan, S2; field; lra|]. split; [rewrite sin_atan, S2; unfold q; field; lra|].
  assert (Qp : 0 < x -> 0 <= q) by (intros; apply Rmult_le_pos; [lra|left; apply Rinv_0_lt_compat; lra]).
  assert (Qn : x < 0 -> q <= 0) by (intros; unfold q, Rdiv; pose proof (Rinv_lt_0_compat x ltac:(lra)); nra).
  assert (Mono : forall u v, u <= v -> atan u <= atan v) by (intros u v [L| ->]; [left; apply atan_increasing; exact L|right; reflexivity]).
  split; [intros Hs|split; [intros Hs|split; intros Hs]].
  - assert (atan 0 <= atan q) by apply Mono, Qp, Hs. lra.
  - assert (atan q <= atan 0) by apply Mono, Qn, Hs. lra.
  - intros Z. assert (Q0 : q = 0) by (rewrite <- (tan_atan q), Z; exact tan_0). apply Rabs_pos_lt in Hs. assert (Rabs y = 0) by (replace (Rabs y) with (Rabs y / x * x) by (field; exact Hx); fold q; rewrite Q0; ring). lra.
  - unfold q. rewrite Hs, Rabs_R0. unfold Rdiv. rewrite Rmult_0_l. exact A0.
Qed.
(** The angle of a vector that is longer than 0.0000000001 is the direction of it, between -180 and 180 degrees. *)
Theorem C133_ang180 : forall p, tiny < len2 p -> in_direction p (ang180 p) /\ -180 < ang180 p <= 180.
Proof.
  intros [x y] H. pose proof tiny_pos as T0. unfold in_direction. cbn [vx vy]. set (m := len2 (P2 x y)) in *. assert (E : m * m = x * x + y * y) by apply (len2_sq (P2 x y)).
  unfold ang180. cbn [vx vy]. cbv zeta. fold m. rewrite (not_nearly_zero m H). replace ((1 * x + 0 * y + 0 * 0) / m) with (x / m) by (field; lra). pose proof rad_180 as K. pose proof PI_RGT_0 as Pp.
  destruct (Req_dec x 0) as [X|X].
  - rewrite X in *. replace (0 / m) with 0 by (field; lra). rewrite (proj2 (is_zero_iff 0) eq_refl). assert (M : (m - y) * (m + y) = 0) by lra.
    destruct (ltb_dec 0 y) as [[-> Y]|[-> Y]].
    + replace (90 * rad) with (PI / 2) by lra. rewrite cos_PI2, sin_PI2. apply Rmult_integral in M. destruct M; repeat split; lra.
    + replace (-90 * rad) with (- (PI / 2)) by lra. rewrite cos_neg, sin_neg, cos_PI2, sin_PI2. apply Rmult_integral in M. destruct M; repeat split; lra.
  - assert (Z : x / m <> 0) by (intros Z; apply X; replace x with (x / m * m) by (field; lra); rewrite Z; ring). rewrite (is_zero_not _ Z).
    destruct (atan_of x y m ltac:(lra) X E) as (Co & Si & Bp & Bn & Yn & Yz). set (t := atan _) in *. clearbody t.
    assert (D : forall u, u * deg = u * (180 / PI)) by reflexivity. assert (D1 : PI * deg = 180) by (unfold deg; field; lra). assert (Dp : 0 < deg) by (unfold deg; apply Rmult_lt_0_compat; [lra|apply Rinv_0_lt_compat; lra]).
    destruct (ltb_dec x 0) as [[-> Xn]|[-> Xn]].
    + rewrite (Rabs_left x Xn) in Co, Si. specialize (Bn Xn). replace (- x / x) with (-1) in Si by (field; exact X).
      destruct (ltb_dec 0 y) as [[-> Y]|[-> Y]].
      * rewrite (Rabs_pos_eq y) in Si by lra. assert (t <> 0) by (apply Yn; lra). rewrite (is_zero_not (t * deg + 180)) by nra. rewrite Rmult_plus_distr_r, deg_rad, K, neg_cos, neg_sin, Co, Si. repeat split; try (field; lra); nra.
      * destruct (ltb_dec y 0) as [[-> Y']|[-> Y']].
        -- rewrite (Rabs_left y) in Si by lra. assert (t <> 0) by (apply Yn; lra). rewrite (is_zero_not (- (180 + t * deg))) by nra. replace (- (180 + t * deg) * rad) with (- (t + PI)) by (rewrite Ropp_mult_distr_l_reverse, Rmult_plus_distr_r, deg_rad; lra).
           rewrite cos_neg, sin_neg, neg_cos, neg_sin, Co, Si. repeat split; try (field; lra); nra.
        -- assert (Y0 : y = 0) by lra. rewrite (Yz Y0), Rmult_0_l, (proj2 (is_zero_iff 0) eq_refl), K, cos_PI, sin_PI. assert (M : (m - x) * (m + x) = 0) by (rewrite Y0 in E; lra). apply Rmult_integral in M. destruct M; repeat split; lra.
    + assert (Xp : 0 < x) by lra. rewrite (Rabs_pos_eq x Xn) in Co, Si. specialize (Bp Xp). replace (x / x) with 1 in Si by (field; exact X). rewrite (proj2 (ltb_true 0 x) Xp). cbn [andb].
      destruct (ltb_dec y 0) as [[-> Y]|[-> Y]].
      * rewrite (Rabs_left y Y) in Si. rewrite Ropp_mult_distr_l_reverse, deg_rad, cos_neg, sin_neg, Co, Si. repeat split; try (field; lra); nra.
      * rewrite (Rabs_pos_eq y) in Si by lra. rewrite deg_rad, Co, Si. repeat split; try (field; lra); nra.
Qed.
Theorem C133_ang360 : forall p, tiny < len2 p -> in_direction p (ang360 p) /\ 0 <= ang360 p < 360.
Proof.
  intros p H. destruct (C133_ang180 p H) as ((X & Y) & B). unfold ang360. cbv zeta. unfold in_direction. destruct (ltb_dec (ang180 p) 0) as [[-> L]|[-> L]].
  - rewrite (cos_turn (ang180 p)), (sin_turn (ang180 p)) by auto. repeat split; try assumption; lra.
  - repeat split; try assumption; lra.
Qed.
(** The directions of a vector differ by whole turns only, so the angles above are the only ones in their ranges. *)
Theorem C133_unique : forall p a b, p <> P2 0 0 -> in_direction p a -> in_direction p b -> -180 < a <= 180 -> -180 < b <= 180 -> a = b.
Proof.
  intros p a b Hp (Xa & Ya) (Xb & Yb) Ha Hb. pose proof rad_180 as K. pose proof rad_pos as Pr. assert (M : 0 < len2 p).
  { destruct (Rle_lt_or_eq_dec _ _ (len2_nn p)) as [L|L]; [exact L|]. destruct Hp. apply p2_eq; cbn [vx vy]; [rewrite Xa|rewrite Ya]; rewrite <- L; ring. }
  assert (Ec : cos (a * rad) = cos (b * rad)) by (apply (Rmult_eq_reg_l (len2 p)); lra). assert (Es : sin (a * rad) = sin (b * rad)) by (apply (Rmult_eq_reg_l (len2 p)); lra).
  assert (S0 : forall u v, cos (u * rad) = cos (v * rad) -> sin (u * rad) = sin (v * rad) -> -180 < v -> u <= 180 -> v < u -> False).
  { intros u v Cu Su Hu Hv Hl. assert (Z : sin ((u - v) / 2 * rad) = 0).
    { assert (C1 : cos ((u - v) * rad) = 1) by (replace ((u - v) * rad) with (u * rad - v * rad) by ring; rewrite cos_minus, Cu, Su; pose proof (sin2_cos2 (v * rad)) as Q; unfold Rsqr in Q; lra).
      replace ((u - v) * rad) with (2 * ((u - v) / 2 * rad)) in C1 by field. rewrite cos_2a_sin in C1. assert (Q : sin ((u - v) / 2 * rad) * sin ((u - v) / 2 * rad) = 0) by lra. apply Rmult_integral in Q. tauto. }
    assert (0 < sin ((u - v) / 2 * rad)); [|lra]. apply sin_gt_0; nra. }
  destruct (Rtotal_order a b) as [L|[L|L]]; [exfalso; apply (S0 b a); try (symmetry; assumption); lra|exact L|exfalso; apply (S0 a b); try assumption; lra].
Qed.
(** The angle of shorter vectors is 90 or -90 degrees, whatever their direction. *)
Theorem C133_short_refuted : exists p, p <> P2 0 0 /\ in_direction p 0 /\ ang180 p = -90.
Proof.
  exists (P2 (tiny / 2) 0). pose proof tiny_pos as T0. assert (L : len2 (P2 (tiny / 2) 0) = tiny / 2).
  { unfold len2, mag2. cbn [vx vy]. replace (tiny / 2 * (tiny / 2) + 0 * 0) with ((tiny / 2)²) by (unfold Rsqr; ring). apply sqrt_Rsqr. lra. }
  split; [intros H; injection H; lra|]. split.
  - unfold in_direction. rewrite L, Rmult_0_l, cos_0, sin_0. cbn [vx vy]. lra.
  - unfold ang180. cbn [vx vy]. cbv zeta. rewrite L, (nearly_zero_le (tiny / 2)) by lra. rewrite (proj2 (is_zero_iff 0) eq_refl), (proj2 (ltb_false 0 0)) by lra. reflexivity.
Qed.

Lemma cauchy u v : Rabs (dot2 u v) <= len2 u * len2 v.
Proof.
  pose proof (len2_nn u) as A. pose proof (len2_nn v) as B. rewrite <- (Rabs_pos_eq (len2 u * len2 v)) by (apply Rmult_le_pos; assumption). apply Rsqr_le_abs_0. unfold Rsqr.
  replace (len2 u * len2 v * (len2 u * len2 v)) with ((len2 u * len2 u) * (len2 v * len2 v)) by ring. rewrite !len2_sq. unfold dot2. pose proof (Rle_0_sqr (vx u * vy v - vy u * vx v)) as Q. unfold Rsqr in Q. lra.
Qed.
(** The angle between two vectors, in radians: its cosine is their scalar product over the product of the lengths. *)
Theorem C133_between : forall u v, / 10000000 <= len2 u * len2 v -> dot2 u v = len2 u * len2 v * cos (angle_between u v) /\ 0 <= angle_between u v <= PI.
Proof.
  intros u v H. unfold angle_between, gt_ish. cbv zeta. set (d := len2 u * len2 v) in *. rewrite (proj2 (ltb_true 0 d)), (proj2 (ltb_false d (0 + / 10000000))) by lra. cbn [negb andb].
  pose proof (cauchy u v) as C. fold d in C. set (k := dot2 u v) in *. assert (E : k = d * (k / d)) by (field; lra). pose proof PI_RGT_0 as Pp.
  assert (B : -1 <= k / d <= 1).
  { pose proof (Rle_abs k). pose proof (Rle_abs (- k)) as C2. rewrite Rabs_Ropp in C2. split; apply (Rmult_le_reg_l d); lra. }
  destruct (ltb_dec (-1) (k / d)) as [[-> L]|[-> L]]; cbn [negb].
  - destruct (ltb_dec (k / d) 1) as [[-> L']|[-> L']]; cbn [negb].
    + rewrite cos_acos by exact B. split; [exact E|]. apply acos_bound.
    + rewrite cos_0. replace (k / d) with 1 in E by lra. lra.
  - rewrite cos_PI. replace (k / d) with (-1) in E by lra. lra.
Qed.
(** Between means between, up to epsilon, whichever of the two bounds is larger. *)
Theorem C133_is_between : forall a b c eps, 0 < eps -> is_between a b c eps = true <-> Rmin b c - eps < a < Rmax b c + eps.
Proof.
  intros a b c eps He. unfold is_between, eq_ish. rewrite !abs_Rabs.
  assert (Q : forall u w, ltb (Rabs (u - w)) eps = true <-> u - eps < w < u + eps) by (intros u w; rewrite ltb_true; split; [intros Hq; apply Rabs_def2 in Hq; lra|intros; apply Rabs_def1; lra]).
  destruct (ltb_dec b c) as [[-> L]|[-> L]]; [rewrite Rmin_left, Rmax_right by lra|rewrite Rmin_right, Rmax_left by lra]; rewrite andb_true_iff, !orb_true_iff, !Q, !ltb_true; lra.
Qed.
Theorem C133_interpolate : forall a b len il, len <> 0 -> interpolate a b len il = if Rlt_dec (Rabs il) (/ 1000000) then a else a + il / len * (b - a).
Proof.
  intros a b len il H. unfold interpolate, eq_ish. rewrite abs_Rabs. replace (0 - il) with (- il) by ring. rewrite Rabs_Ropp. unfold ltb at 1. destruct (Rlt_dec (Rabs il) (/ 1000000)); [reflexivity|].
  destruct (ltb a b); [reflexivity|field; exact H].
Qed.

(** ** C134: coordinates relative to a line *)
(** The coordinates along the line and to the left of it. *)
Theorem C134_relative : forall p a b, tiny < dist2 a p -> tiny < dist2 a b ->
  vx (relative p a b) = proj_dot p a b / dist2 a b /\ vy (relative p a b) = area2 a b a p / dist2 a b.
Proof.
  intros p a b Hp Hb. change (dist2 a p) with (len2 (sub2 p a)) in Hp. change (dist2 a b) with (len2 (sub2 b a)) in *. pose proof tiny_pos as T0.
  destruct (C133_ang180 _ Hp) as ((Xp & Yp) & _). destruct (C133_ang180 _ Hb) as ((Xb & Yb) & _). unfold relative, point_by_angle, scale2. cbv zeta. cbn [vx vy].
  rewrite Rmult_minus_distr_r, cos_minus, sin_minus. unfold proj_dot, area2. unfold sub2 in Xp, Yp, Xb, Yb. cbn [vx vy] in Xp, Yp, Xb, Yb. fold (sub2 p a) (sub2 b a) in Xp, Yp, Xb, Yb. rewrite Xp, Yp, Xb, Yb. split; field; lra.
Qed.
(** In any case the distance from the first point stays. *)
Theorem C134_relative_length : forall p a b, len2 (relative p a b) = dist2 a p.
Proof.
  intros p a b. unfold relative, point_by_angle, scale2. cbv zeta. unfold len2 at 1, mag2. cbn [vx vy]. set (t := (_ - _) * rad). set (l := len2 (sub2 p a)).
  replace (cos t * l * (cos t * l) + sin t * l * (sin t * l)) with (l²). { apply sqrt_Rsqr. apply len2_nn. } pose proof (sin2_cos2 t). unfold Rsqr in *. nsatz.
Qed.
Lemma dist2_pos_neq a b : 0 < dist2 a b -> a <> b.
Proof. intros H ->. unfold dist2, mag2, sub2 in H. cbn [vx vy] in H. replace ((vx b - vx b) * (vx b - vx b) + (vy b - vy b) * (vy b - vy b)) with 0 in H by ring. rewrite sqrt_0 in H. lra. Qed.
Lemma dist2_sqr a b : dist2 a b * dist2 a b = len_sq a b.
Proof. exact (len2_sq (sub2 b a)). Qed.
Lemma norm2_long a b : 0 < dist2 a b -> norm2 (sub2 b a) = P2 ((vx b - vx a) / dist2 a b) ((vy b - vy a) / dist2 a b).
Proof. intros H. change (dist2 a b) with (len2 (sub2 b a)) in *. unfold norm2. cbv zeta. rewrite (proj2 (ltb_true 0 _) H). reflexivity. Qed.
(** The foot of the perpendicular is the projection of C132. *)
Theorem C134_perp_line : forall p a b, tiny < dist2 a p -> tiny < dist2 a b -> perp_line p a b = project p a b.
Proof.
  intros p a b Hp Hb. pose proof tiny_pos as T0. destruct (C134_relative p a b Hp Hb) as (X & _). unfold perp_line. rewrite X, norm2_long by lra. unfold project, add2, scale2. cbn [vx vy]. cbv zeta. fold (len_sq a b) (proj_dot p a b). rewrite <- dist2_sqr.
  apply p2_eq; cbn [vx vy]; field; lra.
Qed.
(** Near the first point, where the angle is not known, the foot is at most this distance away from it. *)
Theorem C134_perp_line_near : forall p a b, tiny < dist2 a b -> on_line (perp_line p a b) a b /\ dist2 a (perp_line p a b) <= dist2 a p.
Proof.
  intros p a b Hb. pose proof tiny_pos as T0. pose proof (C134_relative_length p a b) as L. unfold perp_line. set (x := vx (relative p a b)). rewrite norm2_long by lra. split.
  - exists (x / dist2 a b). unfold at_param, add2, scale2. cbn [vx vy]. split; field; lra.
  - rewrite <- L. unfold dist2 at 1, mag2, sub2, add2, scale2. cbn [vx vy]. unfold len2, mag2. fold x. apply sqrt_le_1_alt.
    replace (_ * _ + _ * _) with (x * x * (len_sq a b / (dist2 a b * dist2 a b))) at 1 by (unfold len_sq; field; lra). rewrite dist2_sqr. pose proof (dist2_sqr a b) as D. pose proof (Rle_0_sqr (vy (relative p a b))) as Q. unfold Rsqr in Q.
    replace (len_sq a b / len_sq a b) with 1 by (field; nra). lra.
Qed.

Lemma len2_scale v k : len2 (scale2 v k) = len2 v * Rabs k.
Proof.
  unfold len2, mag2, scale2. cbn [vx vy]. replace (vx v * k * (vx v * k) + vy v * k * (vy v * k)) with ((vx v * vx v + vy v * vy v) * k²) by (unfold Rsqr; ring).
  rewrite sqrt_mult_alt by (pose proof (Rle_0_sqr (vx v)); pose proof (Rle_0_sqr (vy v)); unfold Rsqr in *; lra). rewrite sqrt_Rsqr_abs. reflexivity.
Qed.
Lemma vy_len p : Rabs (vy p) <= len2 p.
Proof. rewrite <- (Rabs_pos_eq (len2 p)) by apply len2_nn. apply Rsqr_le_abs_0. unfold Rsqr. rewrite len2_sq. pose proof (Rle_0_sqr (vx p)) as Q. unfold Rsqr in Q. lra. Qed.
Lemma dist2_sq_dist p q : dist2 p q = sqrt (sq_dist p q).
Proof. unfold dist2. f_equal. unfold mag2, sub2, sq_dist, Rsqr. cbn [vx vy]. ring. Qed.
Lemma sq_dist_sym p q : sq_dist p q = sq_dist q p. Proof. unfold sq_dist, Rsqr. ring. Qed.
Lemma dist2_sym p q : dist2 p q = dist2 q p. Proof. rewrite !dist2_sq_dist, sq_dist_sym. reflexivity. Qed.
Lemma project_dist p a b : 0 < dist2 a b -> dist2 p (project p a b) = Rabs (area2 a b a p) / dist2 a b.
Proof.
  intros H. pose proof (dist2_sqr a b) as D. assert (M : 0 < len_sq a b) by nra. rewrite dist2_sq_dist. assert (E : sq_dist p (project p a b) = (area2 a b a p / dist2 a b)²).
  { rewrite (dist_param p a b _ _ (project_param p a b ltac:(lra))). unfold Rsqr. replace (area2 a b a p / dist2 a b * (area2 a b a p / dist2 a b)) with (area2 a b a p * area2 a b a p / (dist2 a b * dist2 a b)) by (field; lra). rewrite D.
    unfold sq_dist, Rsqr, proj_dot, area2. set (m := len_sq a b) in *. assert (Em : m = (vx b - vx a) * (vx b - vx a) + (vy b - vy a) * (vy b - vy a)) by reflexivity. field_simplify_eq; [|lra]. rewrite Em. ring. }
  rewrite E, sqrt_Rsqr_abs. unfold Rdiv. rewrite Rabs_mult, Rabs_inv, (Rabs_pos_eq (dist2 a b)) by lra. reflexivity.
Qed.

(** The points of a segment are on it. *)
Theorem C134_on_line : forall p a b eps, tiny < eps -> tiny < dist2 a b -> on_segment p a b -> pt_on_line p a b eps = true.
Proof.
  intros p a b eps He Hb (t & Ht & (X & Y)). pose proof tiny_pos as T0. unfold pt_on_line. cbv zeta. apply andb_true_iff. rewrite !ltb_true. split.
  - assert (E1 : sub2 p a = scale2 (sub2 b a) t) by (apply p2_eq; cbn [vx vy scale2 sub2]; [rewrite X|rewrite Y]; ring). assert (E2 : sub2 b p = scale2 (sub2 b a) (1 - t)) by (apply p2_eq; cbn [vx vy scale2 sub2]; [rewrite X|rewrite Y]; ring).
    rewrite E1, E2, !len2_scale, !Rabs_pos_eq by lra. rewrite abs_Rabs. match goal with |- Rabs ?e < _ => replace e with 0 by ring end. rewrite Rabs_R0. lra.
  - assert (G : Rabs (vy (relative p a b)) < eps).
    { destruct (Rle_or_lt (dist2 a p) tiny) as [L|L].
      - pose proof (vy_len (relative p a b)) as V. rewrite C134_relative_length in V. lra.
      - destruct (C134_relative p a b L Hb) as (_ & ->). replace (area2 a b a p) with 0 by (unfold area2; rewrite X, Y; ring). unfold Rdiv. rewrite Rmult_0_l, Rabs_R0. lra. }
    destruct (ltb_dec (vy (relative p a b)) 0) as [[-> L]|[-> L]]; [rewrite Rabs_left in G by lra|rewrite Rabs_pos_eq in G by lra]; exact G.
Qed.
(** A point that is said to be on the segment is closer to the line than epsilon, and the way over it is at most epsilon longer
    than the segment. *)
Theorem C134_on_line_sound : forall p a b eps, tiny < eps -> tiny < dist2 a b -> pt_on_line p a b eps = true ->
  (exists q, on_line q a b /\ dist2 p q < eps) /\ dist2 a p + dist2 p b < dist2 a b + eps.
Proof.
  intros p a b eps He Hb H. pose proof tiny_pos as T0. unfold pt_on_line in H. cbv zeta in H. apply andb_true_iff in H. rewrite !ltb_true in H. destruct H as (H1 & H2). split.
  - assert (G : Rabs (vy (relative p a b)) < eps) by (destruct (ltb_dec (vy (relative p a b)) 0) as [[E L]|[E L]]; rewrite E in H2; [rewrite Rabs_left by lra|rewrite Rabs_pos_eq by lra]; exact H2).
    destruct (Rle_or_lt (dist2 a p) tiny) as [L|L].
    + exists a. split; [exists 0; split; ring|]. rewrite dist2_sym. lra.
    + exists (project p a b). destruct (C132_project p a b (dist2_pos_neq a b ltac:(lra))) as (On & _). split; [exact On|]. rewrite project_dist by lra. destruct (C134_relative p a b L Hb) as (_ & E). rewrite E in G. unfold Rdiv in *. rewrite Rabs_mult, Rabs_inv, (Rabs_pos_eq (dist2 a b)) in G by lra. exact G.
  - rewrite abs_Rabs in H1. apply Rabs_def2 in H1. change (dist2 a p) with (len2 (sub2 p a)). change (dist2 p b) with (len2 (sub2 b p)). change (dist2 a b) with (len2 (sub2 b a)). lra.
Qed.

(** The distance from a segment is the smallest of the distances from its points. *)
Theorem C134_distance_seg : forall p a b, / 1000000 <= len_sq a b -> tiny < dist2 a p ->
  (exists q, on_segment q a b /\ distance_seg p a b = dist2 p q) /\ forall r, on_segment r a b -> distance_seg p a b <= dist2 p r.
Proof.
  intros p a b Hl Hp. pose proof tiny_pos as T0. assert (Hb : tiny < dist2 a b).
  { destruct (Rle_or_lt (dist2 a b) tiny) as [L|L]; [|exact L]. pose proof (dist2_sqr a b) as D. pose proof (len2_nn (sub2 b a)) as N. fold (dist2 a b) in N. change (len2 (sub2 b a)) with (dist2 a b) in N. unfold tiny in *. nra. }
  destruct (C134_relative p a b Hp Hb) as (X & _). unfold distance_seg. cbv zeta. rewrite X. pose proof (dist2_sqr a b) as D.
  assert (Pa : at_param a b 0 a) by (split; ring). assert (Pb : at_param a b 1 b) by (split; ring). set (pd := proj_dot p a b) in *. set (l := dist2 a b) in *.
  assert (E : pd = pd / l * l) by (field; lra). set (u := pd / l) in *.
  destruct (ltb_dec l u) as [[-> L]|[-> L]]; [|destruct (ltb_dec u 0) as [[-> L']|[-> L']]].
  - rewrite (dist2_sym b p). split; [exists b; split; [exists 1; split; [lra|exact Pb]|reflexivity]|]. intros r (t & Ht & Hr). rewrite !dist2_sq_dist. apply sqrt_le_1_alt. rewrite (dist_param p a b t r Hr), (dist_param p a b 1 b Pb). fold pd. rewrite <- D, E.
    assert (0 <= (1 - t) * (2 * (u * l) - l * l * (1 + t))); [|lra]. apply Rmult_le_pos; [lra|]. nra.
  - rewrite (dist2_sym a p). split; [exists a; split; [exists 0; split; [lra|exact Pa]|reflexivity]|]. intros r (t & Ht & Hr). rewrite !dist2_sq_dist. apply sqrt_le_1_alt. rewrite (dist_param p a b t r Hr). fold pd. rewrite <- D, E. assert (0 <= t * (- u * l)) by (apply Rmult_le_pos; nra). assert (0 <= t * t * (l * l)) by (apply Rmult_le_pos; nra). lra.
  - rewrite C132_distance by exact Hl. rewrite <- dist2_sq_dist. destruct (C132_project p a b (dist2_pos_neq a b ltac:(fold l; lra))) as (_ & _ & Mi). split.
    + exists (project p a b). split; [|reflexivity]. exists (pd / len_sq a b). split; [|apply project_param; lra]. rewrite <- D, E. replace (u * l / (l * l)) with (u / l) by (field; lra). split; [apply Rmult_le_pos; [lra|left; apply Rinv_0_lt_compat; lra]|apply (Rmult_le_reg_r l); [lra|]; replace (u / l * l) with u by (field; lra); lra].
    + intros r (t & Ht & Hr). rewrite !dist2_sq_dist. apply sqrt_le_1_alt. apply Mi. exists t. exact Hr.
Qed.

(** The angle between two lines, at most 90 degrees; angles with a cosine above 0.99999, about a quarter of a degree, are 0. *)
Theorem C134_angle90 : forall a b c d, tiny < dist2 a b -> tiny < dist2 c d -> tiny < dist2 a c -> tiny < dist2 a d ->
  let k := Rabs (dot2 (sub2 b a) (sub2 d c)) / (dist2 a b * dist2 c d) in
  (1 - / 100000 < k -> angle90 a b c d = 0) /\ (k <= 1 - / 100000 -> cos (angle90 a b c d * rad) = k /\ 0 <= angle90 a b c d <= 90).
Proof.
  intros a b c d Hb Hcd Hc Hd k. pose proof tiny_pos as T0. unfold angle90. cbv zeta. rewrite (not_nearly_zero _ Hcd), (C134_perp_line c a b Hc Hb), (C134_perp_line d a b Hd Hb).
  pose proof (dist2_sqr a b) as D. assert (M : len2 (sub2 (project c a b) (project d a b)) / dist2 c d = k).
  { assert (E : sub2 (project c a b) (project d a b) = scale2 (sub2 b a) ((proj_dot c a b - proj_dot d a b) / len_sq a b)).
    { destruct (project_param c a b ltac:(nra)) as (X1 & Y1). destruct (project_param d a b ltac:(nra)) as (X2 & Y2). apply p2_eq; cbn [vx vy sub2 scale2]; rewrite ?X1, ?X2, ?Y1, ?Y2; field; nra. }
    rewrite E, len2_scale. change (len2 (sub2 b a)) with (dist2 a b). unfold k. replace (proj_dot c a b - proj_dot d a b) with (- dot2 (sub2 b a) (sub2 d c)) by (unfold proj_dot, dot2, sub2; cbn [vx vy]; ring).
    unfold Rdiv. rewrite Rabs_mult, Rabs_Ropp, Rabs_inv, <- D, (Rabs_pos_eq (dist2 a b * dist2 a b)) by nra. field. lra. }
  rewrite M. pose proof (cauchy (sub2 b a) (sub2 d c)) as C. change (len2 (sub2 b a)) with (dist2 a b) in C. change (len2 (sub2 d c)) with (dist2 c d) in C.
  assert (P : 0 < dist2 a b * dist2 c d) by (apply Rmult_lt_0_compat; lra). assert (K : 0 <= k <= 1).
  { unfold k. split; [apply Rmult_le_pos; [apply Rabs_pos|left; apply Rinv_0_lt_compat; exact P]|]. apply (Rmult_le_reg_r (dist2 a b * dist2 c d)); [exact P|]. unfold Rdiv. rewrite Rmult_assoc, Rinv_l by lra. lra. }
  clearbody k. pose proof rad_180 as R1. pose proof PI_RGT_0 as Pp. split; intros Hk.
  - rewrite (proj2 (ltb_true 1 (k + / 100000))) by lra. rewrite acos_1. ring.
  - rewrite (proj2 (ltb_false 1 (k + / 100000))) by lra. rewrite deg_rad, cos_acos by lra. split; [reflexivity|]. pose proof (acos_bound k) as B. assert (B2 : acos k <= PI / 2).
    { destruct (Rle_or_lt (acos k) (PI / 2)) as [L|L]; [exact L|]. pose proof (cos_lt_0 (acos k) L ltac:(lra)) as N. rewrite cos_acos in N by lra. lra. }
    assert (Dp : 0 < deg) by (unfold deg; apply Rmult_lt_0_compat; [lra|apply Rinv_0_lt_compat; lra]). assert (D1 : PI * deg = 180) by (unfold deg; field; lra). nra.
Qed.

(** ** C131: the function that says whether segments meet inside *)
Lemma inside_iff s eps : 0 < eps -> inside s eps = true <-> eps <= s <= 1 - eps.
Proof. intros He. unfold inside, gt_ish, lt_ish. rewrite !andb_true_iff, !negb_true_iff, !ltb_true, !ltb_false. lra. Qed.
(** Lines are parallel exactly if the area between their vectors is below epsilon, else the point is the only common one. *)
Theorem C131_inside_point : forall a1 a2 b1 b2 eps, 0 < eps ->
  match intersect_inside a1 a2 b1 b2 eps with
  | None => Rabs (area2 a1 a2 b1 b2) < eps
  | Some (_, q) => eps <= Rabs (area2 a1 a2 b1 b2) /\ on_line q a1 a2 /\ on_line q b1 b2 /\ forall q', on_line q' a1 a2 -> on_line q' b1 b2 -> q' = q
  end.
Proof.
  intros a1 a2 b1 b2 eps He. unfold intersect_inside. cbv zeta. set (w := area2 a1 a2 b1 b2).
  assert (Ew : (vx b2 - vx b1) * (vy a1 - vy a2) - (vx a1 - vx a2) * (vy b2 - vy b1) = w) by (unfold w, area2; ring).
  unfold eq_ish at 1. rewrite abs_Rabs, <- Rabs_Ropp, Ropp_minus_distr, Ew. destruct (ltb_dec (Rabs w) eps) as [[-> L]|[-> L]]; [exact L|].
  assert (F : w <> 0) by (intros Z; rewrite Z, Rabs_R0 in L; lra). pose proof (params_exist a1 a2 b1 b2 F) as PE. cbv zeta in PE. fold w in PE.
  set (ua := ((vx b2 - vx b1) * (vy a1 - vy b1) - (vy b2 - vy b1) * (vx a1 - vx b1)) / w) in *. set (ub := ((vx a2 - vx a1) * (vy a1 - vy b1) - (vy a2 - vy a1) * (vx a1 - vx b1)) / w) in *.
  assert (Es : ((vx a1 - vx b1) * (vy a1 - vy a2) + (vy a1 - vy b1) * (vx a2 - vx a1)) / w = ub) by (unfold ub; field; exact F).
  assert (Et : ((vx a1 - vx b1) * (vy b1 - vy b2) + (vy a1 - vy b1) * (vx b2 - vx b1)) / w = ua) by (unfold ua; field; exact F). rewrite Es, Et. destruct PE as (PA & PB). set (q := P2 (vx a1 + ua * (vx a2 - vx a1)) (vy a1 + ua * (vy a2 - vy a1))) in *.
  assert (G : eps <= Rabs w /\ on_line q a1 a2 /\ on_line q b1 b2 /\ forall q', on_line q' a1 a2 -> on_line q' b1 b2 -> q' = q).
  { split; [exact L|]. split; [exists ua; exact PA|]. split; [exists ub; exact PB|]. intros q' (s & Hs) (t & Ht). destruct (params_unique a1 a2 b1 b2 q' s t F Hs Ht) as (E1 & _). fold w in E1. fold ua in E1. rewrite E1 in Hs. destruct Hs as (X & Y). apply p2_eq; cbn [vx vy q]; assumption. }
  destruct PB as (XB & YB). cbn [vx vy q] in XB, YB.
  destruct (is_zero (vx a1 - vx a2)) eqn:Za; [|destruct (is_zero (vx b1 - vx b2)) eqn:Zb].
  - apply is_zero_iff in Za. replace (P2 (vx a1) (ub * (vy b2 - vy b1) + vy b1)) with q; [exact G|]. apply p2_eq; cbn [vx vy q]; [replace (vx a2) with (vx a1) by lra; ring|lra].
  - apply is_zero_iff in Zb. replace (P2 (vx b1) (ua * (vy a2 - vy a1) + vy a1)) with q; [exact G|]. apply p2_eq; cbn [vx vy q]; [|ring]. rewrite XB. replace (vx b2) with (vx b1) by lra. ring.
  - replace (P2 (ua * (vx a2 - vx a1) + vx a1) (ua * (vy a2 - vy a1) + vy a1)) with q; [exact G|]. apply p2_eq; cbn [vx vy q]; ring.
Qed.
(** If neither segment is vertical, the flag says that the point is inside of both, away from the ends by epsilon. *)
Theorem C131_inside_flag : forall a1 a2 b1 b2 eps f q s t, 0 < eps -> vx a1 <> vx a2 -> vx b1 <> vx b2 -> intersect_inside a1 a2 b1 b2 eps = Some (f, q) -> at_param a1 a2 t q -> at_param b1 b2 s q ->
  f = true <-> eps <= s <= 1 - eps /\ eps <= t <= 1 - eps.
Proof.
  intros a1 a2 b1 b2 eps f q s t He Ha Hb H At As. pose proof (C131_inside_point a1 a2 b1 b2 eps He) as P. rewrite H in P. destruct P as (L & _). unfold intersect_inside in H. cbv zeta in H. set (w := area2 a1 a2 b1 b2) in *.
  assert (Ew : (vx b2 - vx b1) * (vy a1 - vy a2) - (vx a1 - vx a2) * (vy b2 - vy b1) = w) by (unfold w, area2; ring). assert (F : w <> 0) by (intros Z; rewrite Z, Rabs_R0 in L; lra).
  unfold eq_ish at 1 in H. rewrite abs_Rabs, <- Rabs_Ropp, Ropp_minus_distr, Ew in H. rewrite (proj2 (ltb_false (Rabs w) eps) L) in H. rewrite (is_zero_not (vx a1 - vx a2)), (is_zero_not (vx b1 - vx b2)) in H by lra. injection H as <- _.
  destruct (params_unique a1 a2 b1 b2 q t s F At As) as (Et & Es). fold w in Et, Es.
  replace (((vx a1 - vx b1) * (vy a1 - vy a2) + (vy a1 - vy b1) * (vx a2 - vx a1)) / w) with s by (rewrite Es; field; exact F). replace (((vx a1 - vx b1) * (vy b1 - vy b2) + (vy a1 - vy b1) * (vx b2 - vx b1)) / w) with t by (rewrite Et; field; exact F).
  rewrite andb_true_iff, !inside_iff by exact He. reflexivity.
Qed.
(** A vertical first segment is met up to its ends, and an epsilon further. *)
Theorem C131_inside_vertical : forall a1 a2 b1 b2 eps f q s, 0 < eps <= / 2 -> vx a1 = vx a2 -> intersect_inside a1 a2 b1 b2 eps = Some (f, q) -> at_param b1 b2 s q ->
  f = true <-> eps <= s <= 1 - eps /\ Rmin (vy a1) (vy a2) - eps < vy q < Rmax (vy a1) (vy a2) + eps.
Proof.
  intros a1 a2 b1 b2 eps f q s He Ha H As. pose proof (C131_inside_point a1 a2 b1 b2 eps ltac:(lra)) as P. rewrite H in P. destruct P as (L & (t & At) & _). unfold intersect_inside in H. cbv zeta in H. set (w := area2 a1 a2 b1 b2) in *.
  assert (Ew : (vx b2 - vx b1) * (vy a1 - vy a2) - (vx a1 - vx a2) * (vy b2 - vy b1) = w) by (unfold w, area2; ring). assert (F : w <> 0) by (intros Z; rewrite Z, Rabs_R0 in L; lra).
  unfold eq_ish at 1 in H. rewrite abs_Rabs, <- Rabs_Ropp, Ropp_minus_distr, Ew in H. rewrite (proj2 (ltb_false (Rabs w) eps) L) in H. rewrite (proj2 (is_zero_iff (vx a1 - vx a2))) in H by lra.
  destruct (params_unique a1 a2 b1 b2 q t s F At As) as (Et & Es). fold w in Et, Es.
  replace (((vx a1 - vx b1) * (vy a1 - vy a2) + (vy a1 - vy b1) * (vx a2 - vx a1)) / w) with s in H by (rewrite Es; field; exact F). replace (((vx a1 - vx b1) * (vy b1 - vy b2) + (vy a1 - vy b1) * (vx b2 - vx b1)) / w) with t in H by (rewrite Et; field; exact F).
  injection H as Hf Hq. rewrite Hq in Hf. subst f. unfold is_between2. rewrite andb_true_iff, (inside_iff s eps) by lra.
  assert (X : is_between (vx q) (vx a1) (vx a2) eps = true) by (apply C133_is_between; [lra|]; destruct At as (Xq & _); rewrite <- Ha in *; rewrite Rmin_left, Rmax_left by lra; rewrite Xq; lra). rewrite X. cbn [andb].
  destruct (is_between (vy q) (vy a1) (vy a2) eps) eqn:E.
  - apply C133_is_between in E; [|lra]. rewrite inside_iff by lra. lra.
  - assert (N : ~ (Rmin (vy a1) (vy a2) - eps < vy q < Rmax (vy a1) (vy a2) + eps)) by (intros B; apply C133_is_between in B; [congruence|lra]). rewrite inside_iff by lra. split; [|tauto]. intros (S1 & S2). exfalso. apply N. destruct At as (_ & Yq).
    unfold Rmin, Rmax. destruct (Rle_dec (vy a1) (vy a2)); rewrite Yq; nra.
Qed.
(** With vertical segments the result depends on which way the axes are: a vertical segment that ends on a horizontal one meets
    it, and a horizontal segment that ends on a vertical one does not. *)
Theorem C131_inside_refuted : exists a1 a2 b1 b2, let m p := P2 (vy p) (vx p) in
  intersect_inside a1 a2 b1 b2 (/ 1000) = Some (true, P2 0 2) /\ intersect_inside (m a1) (m a2) (m b1) (m b2) (/ 1000) = Some (false, P2 2 0).
Proof.
  exists (P2 0 0), (P2 0 2), (P2 (-1) 2), (P2 1 2). cbv zeta. cbn [vx vy].
  assert (B : forall x a b, a - / 1000 < x < b + / 1000 -> a <= b -> is_between x a b (/ 1000) = true) by (intros x a b Hx Hab; apply C133_is_between; [lra|]; rewrite Rmin_left, Rmax_right by lra; exact Hx).
  assert (I : forall s, / 1000 <= s <= 1 - / 1000 -> inside s (/ 1000) = true) by (intros s Hs; apply inside_iff; lra). split; unfold intersect_inside; cbn [vx vy]; cbv zeta.
  - unfold eq_ish at 1. rewrite abs_Rabs. rewrite (proj2 (ltb_false _ _)) by (replace ((0 - 0) * (2 - 2) - (1 - -1) * (0 - 2)) with 4 by ring; rewrite Rabs_pos_eq; lra).
    rewrite (proj2 (is_zero_iff (0 - 0)) ltac:(ring)). match goal with |- context [inside ?e (/ 1000) && _] => replace e with (/ 2) by field end. unfold is_between2. cbn [vx vy]. rewrite !B by lra. cbn [andb]. rewrite !I by lra. cbn [andb]. f_equal. f_equal. apply p2_eq; cbn [vx vy]; lra.
  - unfold eq_ish at 1. rewrite abs_Rabs. rewrite (proj2 (ltb_false _ _)) by (replace ((0 - 2) * (1 - -1) - (2 - 2) * (0 - 0)) with (- (4)) by ring; rewrite Rabs_Ropp, Rabs_pos_eq; lra).
    rewrite (is_zero_not (0 - 2)) by lra. rewrite (proj2 (is_zero_iff (2 - 2)) ltac:(ring)). match goal with |- Some (_ && inside ?e _, _) = _ => replace e with 1 by field end.
    assert (N : inside 1 (/ 1000) = false) by (destruct (inside 1 (/ 1000)) eqn:E; [apply inside_iff in E; lra|reflexivity]). rewrite N, andb_false_r. f_equal. f_equal. apply p2_eq; cbn [vx vy]; lra.
Qed.

(** ** Concrete cases *)
Lemma dist2_val a b l : 0 <= l -> (vx b - vx a) * (vx b - vx a) + (vy b - vy a) * (vy b - vy a) = l * l -> dist2 a b = l.
Proof. intros Hl E. unfold dist2, mag2, sub2. cbn [vx vy]. rewrite E. apply sqrt_Rsqr. exact Hl. Qed.
Lemma long_ex a b l : 1 <= l -> (vx b - vx a) * (vx b - vx a) + (vy b - vy a) * (vy b - vy a) = l * l -> tiny < dist2 a b.
Proof. intros Hl E. rewrite (dist2_val a b l) by (try exact E; lra). unfold tiny. lra. Qed.
Example ex_inside : intersect_inside (P2 0 0) (P2 2 2) (P2 0 2) (P2 2 0) (/ 1000) = Some (true, P2 1 1).
Proof.
  unfold intersect_inside. cbn [vx vy]. cbv zeta. rewrite (is_zero_not (0 - 2)) by lra. unfold eq_ish at 1. rewrite abs_Rabs. rewrite (proj2 (ltb_false _ _)) by (replace ((0 - 2) * (0 - 2) - (2 - 0) * (0 - 2)) with 8 by ring; rewrite Rabs_pos_eq; lra).
  assert (I : inside (/ 2) (/ 1000) = true) by (apply inside_iff; lra). match goal with |- Some (inside ?e _ && inside ?f _, _) = _ => replace e with (/ 2) by field; replace f with (/ 2) by field end. rewrite I. cbn [andb]. f_equal. f_equal. apply p2_eq; cbn [vx vy]; lra.
Qed.
Example ex_sin : special_sin 3 (-30) = Some (- (1 / 2)).
Proof. rewrite C133_sin by (try lra; lia). replace (-30 * rad) with (- (PI / 6)) by (unfold rad; field). rewrite sin_neg, sin_PI6. reflexivity. Qed.
Example ex_cos : special_cos 3 300 = Some (1 / 2).
Proof. rewrite C133_cos by (try lra; lia). replace (300 * rad) with (- (PI / 3) + 2 * PI) by (unfold rad; field). rewrite cos_plus, cos_2PI, sin_2PI, cos_neg, cos_PI3. f_equal. ring. Qed.
Example ex_ang180 : ang180 (P2 (-3) (-3)) = -135.
Proof.
  assert (L : tiny < len2 (P2 (-3) (-3))).
  { unfold len2, mag2. cbn [vx vy]. apply Rlt_le_trans with 1; [unfold tiny; lra|]. rewrite <- sqrt_1. apply sqrt_le_1_alt. lra. }
  destruct (C133_ang180 _ L) as (Dir & B). apply (C133_unique (P2 (-3) (-3))); try assumption; try lra; [intros H; injection H; lra|].
  unfold in_direction. assert (E : len2 (P2 (-3) (-3)) = 3 * sqrt 2) by (unfold len2, mag2; cbn [vx vy]; replace (-3 * -3 + -3 * -3) with (3 * 3 * 2) by ring; rewrite sqrt_mult_alt, sqrt_square by lra; reflexivity).
  rewrite E. replace (-135 * rad) with (- (3 * (PI / 4))) by (unfold rad; field). rewrite cos_neg, sin_neg, cos_3PI4, sin_3PI4. cbn [vx vy]. assert (S : sqrt 2 <> 0) by (apply Rgt_not_eq, sqrt_lt_R0; lra). split; field; exact S.
Qed.
Example ex_between : cos (angle_between (P2 3 4) (P2 4 3)) = 24 / 25 /\ 0 <= angle_between (P2 3 4) (P2 4 3) <= PI.
Proof.
  assert (E1 : len2 (P2 3 4) = 5) by (unfold len2, mag2; cbn [vx vy]; replace (3 * 3 + 4 * 4) with (5 * 5) by ring; apply sqrt_square; lra).
  assert (E2 : len2 (P2 4 3) = 5) by (unfold len2, mag2; cbn [vx vy]; replace (4 * 4 + 3 * 3) with (5 * 5) by ring; apply sqrt_square; lra).
  destruct (C133_between (P2 3 4) (P2 4 3) ltac:(rewrite E1, E2; lra)) as (A & B). split; [|exact B]. rewrite E1, E2 in A. unfold dot2 in A. cbn [vx vy] in A. lra.
Qed.
Example ex_interpolate : interpolate 10 2 4 1 = 8.
Proof. rewrite C133_interpolate by lra. destruct (Rlt_dec (Rabs 1) (/ 1000000)) as [H|H]; [rewrite Rabs_R1 in H; lra|lra]. Qed.
Example ex_relative : relative (P2 3 4) (P2 0 0) (P2 0 2) = P2 4 (-3).
Proof.
  destruct (C134_relative (P2 3 4) (P2 0 0) (P2 0 2)) as (X & Y); [apply (long_ex _ _ 5); cbn [vx vy]; lra|apply (long_ex _ _ 2); cbn [vx vy]; lra|].
  rewrite (dist2_val _ _ 2) in X, Y by (cbn [vx vy]; lra). apply p2_eq; [rewrite X|rewrite Y]; unfold proj_dot, area2; cbn [vx vy]; lra.
Qed.
Example ex_on_line : pt_on_line (P2 3 4) (P2 0 0) (P2 6 8) (/ 1000) = true.
Proof. apply C134_on_line; [unfold tiny; lra|apply (long_ex _ _ 10); cbn [vx vy]; lra|]. exists (/ 2). split; [lra|]. split; cbn [vx vy]; lra. Qed.
Example ex_distance_seg : distance_seg (P2 9 12) (P2 0 0) (P2 6 8) = 5.
Proof.
  assert (Hl : / 1000000 <= len_sq (P2 0 0) (P2 6 8)) by (unfold len_sq; cbn [vx vy]; lra). assert (Hp : tiny < dist2 (P2 0 0) (P2 9 12)) by (apply (long_ex _ _ 15); cbn [vx vy]; lra). assert (Hb : tiny < dist2 (P2 0 0) (P2 6 8)) by (apply (long_ex _ _ 10); cbn [vx vy]; lra).
  unfold distance_seg. cbv zeta. destruct (C134_relative _ _ _ Hp Hb) as (-> & _). rewrite (dist2_val (P2 0 0) (P2 6 8) 10), (dist2_val (P2 6 8) (P2 9 12) 5) by (cbn [vx vy]; lra). unfold proj_dot. cbn [vx vy]. rewrite (proj2 (ltb_true _ _)) by lra. reflexivity.
Qed.
Example ex_angle90 : angle90 (P2 0 0) (P2 2 0) (P2 1 1) (P2 1 5) = 90.
Proof.
  assert (H1 : tiny < dist2 (P2 0 0) (P2 1 1)) by (unfold dist2, mag2, sub2; cbn [vx vy]; apply Rlt_le_trans with 1; [unfold tiny; lra|]; rewrite <- sqrt_1 at 1; apply sqrt_le_1_alt; lra).
  assert (H2 : tiny < dist2 (P2 0 0) (P2 1 5)) by (unfold dist2, mag2, sub2; cbn [vx vy]; apply Rlt_le_trans with 1; [unfold tiny; lra|]; rewrite <- sqrt_1 at 1; apply sqrt_le_1_alt; lra).
  assert (H3 : tiny < dist2 (P2 0 0) (P2 2 0)) by (apply (long_ex _ _ 2); cbn [vx vy]; lra). assert (H4 : tiny < dist2 (P2 1 1) (P2 1 5)) by (apply (long_ex _ _ 4); cbn [vx vy]; lra).
  destruct (C134_angle90 _ _ _ _ H3 H4 H1 H2) as (_ & K). rewrite (dist2_val _ _ 2), (dist2_val _ _ 4) in K by (cbn [vx vy]; lra). unfold dot2, sub2 in K. cbn [vx vy] in K. replace ((2 - 0) * (1 - 1) + (0 - 0) * (5 - 1)) with 0 in K by ring. rewrite Rabs_R0 in K.
  destruct (K ltac:(lra)) as (C & B). destruct (Rle_lt_or_eq_dec _ _ (proj2 B)) as [L|L]; [|exact L]. exfalso. pose proof rad_pos. pose proof rad_180. assert (0 < cos (angle90 (P2 0 0) (P2 2 0) (P2 1 1) (P2 1 5) * rad)) by (apply cos_gt_0; nra). lra.
Qed.
Print Assumptions C133_sin.
Print Assumptions C133_cos.
Print Assumptions C133_sin_refuted.
Print Assumptions C133_ends.
Print Assumptions C133_ang180.
Print Assumptions C133_ang360.
Print Assumptions C133_unique.
Print Assumptions C133_short_refuted.
Print Assumptions C133_between.
Print Assumptions C133_is_between.
Print Assumptions C133_interpolate.
Print Assumptions C134_relative.
Print Assumptions C134_relative_length.
Print Assumptions C134_perp_line.
Print Assumptions C134_perp_line_near.
Print Assumptions C134_on_line.
Print Assumptions C134_on_line_sound.
Print Assumptions C134_distance_seg.
Print Assumptions C134_angle90.
Print Assumptions C131_inside_point.
Print Assumptions C131_inside_flag.
Print Assumptions C131_inside_refuted.
Print Assumptions C131_inside_vertical.
