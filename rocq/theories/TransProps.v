(** Properties C123 to C126: points and transform matrices (TransModel.v). *)
From Coq Require Import List Reals Bool Lra Psatz Nsatz.
From Verif Require Import TransModel.
Import ListNotations.
Local Open Scope R_scope.

Ltac mats := repeat match goal with m : mat |- _ => destruct m | p : pt |- _ => destruct p | s : smat |- _ => destruct s end.
Ltac go := cbn [m00 m01 m02 m10 m11 m12 m20 m21 m22 m30 m31 m32 px py pz u_of v_of w_of offset_of fst snd] in *.

Lemma mat_eq a b c d e f g h i j k l a' b' c' d' e' f' g' h' i' j' k' l' :
  a = a' -> b = b' -> c = c' -> d = d' -> e = e' -> f = f' -> g = g' -> h = h' -> i = i' -> j = j' -> k = k' -> l = l' ->
  Mat a b c d e f g h i j k l = Mat a' b' c' d' e' f' g' h' i' j' k' l'.
Proof. intros. subst. reflexivity. Qed.
Lemma pt_eq x y z x' y' z' : x = x' -> y = y' -> z = z' -> Pt x y z = Pt x' y' z'.
Proof. intros. subst. reflexivity. Qed.
Ltac feq := first [apply mat_eq | apply pt_eq | apply f_equal2].

Lemma ltb_true a b : ltb a b = true <-> a < b.
Proof. unfold ltb. destruct (Rlt_dec a b); split; intros; try assumption; try reflexivity; try discriminate; contradiction. Qed.
Lemma ltb_false a b : ltb a b = false <-> b <= a.
Proof. unfold ltb. destruct (Rlt_dec a b); split; intros; try discriminate; try reflexivity; lra. Qed.
Lemma abs_Rabs x : abs x = Rabs x.
Proof. unfold abs. destruct (Rle_dec 0 x); [rewrite Rabs_pos_eq|rewrite Rabs_left]; lra. Qed.

(** ** C123: products, inverses *)

(** The product is first the left matrix, then the right one. *)
Theorem C123_product : forall a b p, transform (mul a b) p = transform b (transform a p).
Proof. intros a b p. mats. unfold transform, mul. go. feq; ring. Qed.

Theorem C123_associative : forall a b c, mul (mul a b) c = mul a (mul b c).
Proof. intros a b c. mats. unfold mul. go. feq; ring. Qed.
Theorem C123_identity : forall m p, mul identity m = m /\ mul m identity = m /\ transform identity p = p.
Proof. intros m p. mats. unfold mul, transform, identity. go. repeat split; feq; ring. Qed.

(** The determinant of the rows. *)
Definition determinant (m : mat) : R := dot (u_of m) (cross (v_of m) (w_of m)).
Lemma split_sum l : sum (map add_pos l) + sum (map add_neg l) = sum l.
Proof.
  induction l as [|x l IH]; cbn [map sum fold_right]; [lra|]. fold (sum (map add_pos l)). fold (sum (map add_neg l)). fold (sum l).
  unfold add_pos at 1, add_neg at 1. destruct (Rle_dec 0 x); lra.
Qed.
Lemma det_of_spec m : det_of m = determinant m.
Proof. unfold det_of. rewrite split_sum. mats. unfold determinant, terms, sum, dot, cross. cbn [fold_right]. go. ring. Qed.
(** The sum of the absolute values of the terms. *)
Lemma mag_abs l : sum (map add_pos l) - sum (map add_neg l) = sum (map Rabs l).
Proof.
  induction l as [|x l IH]; cbn [map sum fold_right]; [lra|].
  fold (sum (map add_pos l)). fold (sum (map add_neg l)). fold (sum (map Rabs l)).
  unfold add_pos at 1, add_neg at 1. destruct (Rle_dec 0 x); [rewrite (Rabs_pos_eq x) by lra|rewrite (Rabs_left x) by lra]; lra.
Qed.

Lemma inverse_both m d : d = determinant m -> d <> 0 -> mul m (inverse m d) = identity /\ mul (inverse m d) m = identity.
Proof.
  intros E Hd. mats. unfold determinant, dot, cross in E. go. unfold mul, inverse, identity. go.
  split; feq; rewrite ?E; field; rewrite <- ?E; try exact Hd; intros H; apply Hd; rewrite E; rewrite <- H; ring.
Qed.

(** A matrix is inverted if its determinant is not tiny, neither by itself nor compared with its terms. *)
Definition regular (m : mat) : Prop := tiny <= mag_of m /\ tiny <= Rabs (determinant m) / mag_of m.
Theorem C123_invert : forall m, regular m -> mul m (invert m) = identity /\ mul (invert m) m = identity.
Proof.
  intros m [H1 H2]. unfold invert. assert (T0 : 0 < tiny) by (unfold tiny; lra).
  rewrite (proj2 (ltb_false (abs (mag_of m)) tiny)) by (rewrite abs_Rabs, Rabs_pos_eq; lra).
  assert (E : Rabs (det_of m / mag_of m) = Rabs (determinant m) / mag_of m).
  { rewrite det_of_spec. unfold Rdiv. rewrite Rabs_mult, Rabs_inv, (Rabs_pos_eq (mag_of m)) by lra. reflexivity. }
  rewrite (proj2 (ltb_false (abs (det_of m / mag_of m)) tiny)) by (rewrite abs_Rabs, E; exact H2).
  apply inverse_both; [apply det_of_spec|]. intros Z. rewrite det_of_spec in Z. rewrite Z, Rabs_R0 in H2. unfold Rdiv in H2. lra.
Qed.
Theorem C123_invert_points : forall m p, regular m -> transform (invert m) (transform m p) = p /\ transform m (transform (invert m) p) = p.
Proof.
  intros m p H. destruct (C123_invert m H) as [E1 E2]. rewrite <- !C123_product, E1, E2. split; apply (C123_identity m p).
Qed.
(** In particular every matrix whose determinant is at least 1e-8 and not small compared with the terms. *)
Theorem C123_regular : forall m, tiny <= Rabs (determinant m) -> mag_of m <= Rabs (determinant m) * 100000000 -> regular m.
Proof.
  intros m H1 H2. assert (L : Rabs (determinant m) <= mag_of m).
  { unfold mag_of. rewrite mag_abs, <- det_of_spec. unfold det_of. rewrite split_sum.
    generalize (terms m). induction l as [|x l IH]; cbn [map sum fold_right]; [rewrite Rabs_R0; lra|].
    fold (sum l). fold (sum (map Rabs l)). pose proof (Rabs_triang x (sum l)). lra. }
  assert (T0 : 0 < tiny) by (unfold tiny; lra). split; [lra|].
  apply Rmult_le_reg_r with (mag_of m); [lra|]. unfold Rdiv. rewrite Rmult_assoc, Rinv_l, Rmult_1_r by lra. unfold tiny. lra.
Qed.
Example C123_invert_case : regular (scaling 2 3 4) /\ invert (scaling 2 3 4) = scaling (/ 2) (/ 3) (/ 4).
Proof.
  assert (D : determinant (scaling 2 3 4) = 24) by (unfold determinant, dot, cross, scaling; go; ring).
  assert (M : mag_of (scaling 2 3 4) = 24).
  { unfold mag_of, terms, scaling. go. rewrite mag_abs. cbn [map sum fold_right].
    rewrite !Rmult_0_l, !Rmult_0_r, ?Rmult_0_l, Ropp_0, !Rabs_R0, Rabs_pos_eq by lra. ring. }
  assert (Rg : regular (scaling 2 3 4)).
  { apply C123_regular; rewrite D, ?M, Rabs_pos_eq; unfold tiny; lra. }
  split; [exact Rg|].
  destruct (C123_invert _ Rg) as [_ E]. transitivity (mul (invert (scaling 2 3 4)) (mul (scaling 2 3 4) (scaling (/ 2) (/ 3) (/ 4)))).
  - replace (mul (scaling 2 3 4) (scaling (/ 2) (/ 3) (/ 4))) with identity; [symmetry; apply (C123_identity _ (Pt 0 0 0))|].
    unfold mul, scaling, identity. go. feq; lra.
  - rewrite <- C123_associative, E. apply (C123_identity _ (Pt 0 0 0)).
Qed.

(** Scaling to one thousandth (from millimetres to metres) can be undone, but it is not inverted: the determinant is
    smaller than the limit, and the transposed matrix is given. *)
Theorem C123_invert_refuted : exists m n, mul m n = identity /\ mul n m = identity /\ invert m = m /\ mul m (invert m) <> identity.
Proof.
  exists (scaling (/ 1000) (/ 1000) (/ 1000)), (scaling 1000 1000 1000).
  assert (E : invert (scaling (/ 1000) (/ 1000) (/ 1000)) = scaling (/ 1000) (/ 1000) (/ 1000)).
  { unfold invert. assert (M : mag_of (scaling (/ 1000) (/ 1000) (/ 1000)) = / 1000000000).
    { unfold mag_of, terms, scaling. go. rewrite mag_abs. cbn [map sum fold_right].
      rewrite !Rmult_0_l, !Rmult_0_r, ?Rmult_0_l, Ropp_0, !Rabs_R0, Rabs_pos_eq by lra. lra. }
    rewrite M. rewrite (proj2 (ltb_true (abs (/ 1000000000)) tiny)) by (rewrite abs_Rabs, Rabs_pos_eq; unfold tiny; lra).
    reflexivity. }
  split; [unfold mul, scaling, identity; go; feq; lra|]. split; [unfold mul, scaling, identity; go; feq; lra|].
  split; [exact E|]. rewrite E. intros H. apply (f_equal m00) in H. unfold mul, scaling, identity in H. go. lra.
Qed.

(** ** C124: points back through the matrix *)

(** Rows of length one that are perpendicular. *)
Definition orthonormal (m : mat) : Prop :=
  dot (u_of m) (u_of m) = 1 /\ dot (v_of m) (v_of m) = 1 /\ dot (w_of m) (w_of m) = 1 /\
  dot (u_of m) (v_of m) = 0 /\ dot (v_of m) (w_of m) = 0 /\ dot (w_of m) (u_of m) = 0.

(** [InversePointTransform] undoes [PointTransform] exactly for matrices without scaling and shear. *)
Theorem C124_inverse_transform : forall m, (forall p, inverse_transform m (transform m p) = p) <-> orthonormal m.
Proof.
  intros m. split.
  - intros H. pose proof (H (Pt 1 0 0)) as H1. pose proof (H (Pt 0 1 0)) as H2. pose proof (H (Pt 0 0 1)) as H3. clear H.
    unfold inverse_transform, transform in *. mats. go. injection H1 as E1 E2 E3. injection H2 as E4 E5 E6. injection H3 as E7 E8 E9.
    unfold orthonormal, dot. go. repeat split; lra.
  - intros (H1 & H2 & H3 & H4 & H5 & H6) p. mats. unfold dot, inverse_transform, transform in *. go.
    feq; nsatz.
Qed.

(** Then the columns are so too, and it undoes the transform from the other side. *)
Lemma orthonormal_columns m : orthonormal m ->
  dot (Pt (m00 m) (m10 m) (m20 m)) (Pt (m00 m) (m10 m) (m20 m)) = 1 /\
  dot (Pt (m01 m) (m11 m) (m21 m)) (Pt (m01 m) (m11 m) (m21 m)) = 1 /\
  dot (Pt (m02 m) (m12 m) (m22 m)) (Pt (m02 m) (m12 m) (m22 m)) = 1 /\
  dot (Pt (m00 m) (m10 m) (m20 m)) (Pt (m01 m) (m11 m) (m21 m)) = 0 /\
  dot (Pt (m01 m) (m11 m) (m21 m)) (Pt (m02 m) (m12 m) (m22 m)) = 0 /\
  dot (Pt (m02 m) (m12 m) (m22 m)) (Pt (m00 m) (m10 m) (m20 m)) = 0.
Proof.
  intros H.
  set (a := Mat (m00 m) (m01 m) (m02 m) (m10 m) (m11 m) (m12 m) (m20 m) (m21 m) (m22 m) 0 0 0).
  set (b := Mat (m00 m) (m10 m) (m20 m) (m01 m) (m11 m) (m21 m) (m02 m) (m12 m) (m22 m) 0 0 0).
  assert (AB : mul a b = identity).
  { destruct H as (H1 & H2 & H3 & H4 & H5 & H6). unfold a, b, mul, identity. mats. unfold dot in *. go. feq; nsatz. }
  assert (D : determinant a * determinant b = 1).
  { transitivity (determinant (mul a b)); [|rewrite AB; unfold determinant, identity, dot, cross; go; ring].
    unfold a, b, determinant, mul, dot, cross. go. ring. }
  assert (Da : determinant a <> 0) by (intros Z; rewrite Z in D; lra).
  destruct (inverse_both a (determinant a) eq_refl Da) as [I1 I2].
  assert (BA : mul b a = identity).
  { assert (Eb : b = inverse a (determinant a)).
    { transitivity (mul (mul (inverse a (determinant a)) a) b).
      - rewrite I2. symmetry. apply (C123_identity b (Pt 0 0 0)).
      - rewrite C123_associative, AB. apply (C123_identity _ (Pt 0 0 0)). }
    rewrite Eb. exact I2. }
  unfold b, a, mul, identity in BA. go. unfold dot. go.
  injection BA as E1 E2 E3 E4 E5 E6 E7 E8 E9. repeat split; lra.
Qed.
Theorem C124_transform_back : forall m p, orthonormal m -> transform m (inverse_transform m p) = p.
Proof.
  intros m p H. destruct (orthonormal_columns m H) as (H1 & H2 & H3 & H4 & H5 & H6). clear H. mats.
  unfold dot, inverse_transform, transform in *. go. feq; nsatz.
Qed.
Example C124_case : orthonormal (Mat 0 1 0 (-1) 0 0 0 0 1 5 6 7).
Proof. unfold orthonormal, dot. go. repeat split; ring. Qed.
Theorem C124_refuted : exists m p, regular m /\ inverse_transform m (transform m p) <> p.
Proof.
  exists (scaling 2 3 4), (Pt 1 0 0). split; [apply C123_invert_case|]. unfold inverse_transform, transform, scaling. go.
  intros H. apply (f_equal px) in H. go. lra.
Qed.

(** With two coordinates both do the same as with the third coordinate zero. *)
Theorem C124_two : forall m x y,
  transform2 m (x, y) = (px (transform m (Pt x y 0)), py (transform m (Pt x y 0))) /\
  inverse_transform2 m (x, y) = (px (inverse_transform m (Pt x y 0)), py (inverse_transform m (Pt x y 0))).
Proof.
  intros m x y. destruct m. unfold transform2, inverse_transform2, transform, inverse_transform. go. split; reflexivity.
Qed.
(** With two coordinates it undoes the transform only if the matrix does not move points out of the plane, for all points. *)
Theorem C124_inverse_transform2 : forall m, orthonormal m ->
  (forall p, inverse_transform2 m (transform2 m p) = p) <->
  (m02 m = 0 /\ m12 m = 0).
Proof.
  intros m H. destruct H as (H1 & H2 & H3 & H4 & H5 & H6). split.
  - intros H. pose proof (H (0, 0)) as E0. pose proof (H (1, 0)) as E1. pose proof (H (0, 1)) as E2. clear H.
    unfold inverse_transform2, transform2 in *. mats. unfold dot in *. go.
    injection E0 as A0 B0. injection E1 as A1 B1. injection E2 as A2 B2.
    split; apply Rsqr_0_uniq; unfold Rsqr; [clear A2 B2 H2|clear A1 B1 H1]; nsatz.
  - intros [Z1 Z2] p. unfold inverse_transform2, transform2. mats. destruct p as [x y]. unfold dot in *. go. subst. feq; nsatz.
Qed.

(** ** C125: moving, turning and scaling *)

(** The matrices of the single steps; angles in degrees. *)
Definition turn_x (deg : R) : mat := Mat 1 0 0  0 (cos (radians deg)) (sin (radians deg))  0 (- sin (radians deg)) (cos (radians deg))  0 0 0.
Definition turn_y (deg : R) : mat := Mat (cos (radians deg)) 0 (- sin (radians deg))  0 1 0  (sin (radians deg)) 0 (cos (radians deg))  0 0 0.
Definition turn_z (deg : R) : mat := Mat (cos (radians deg)) (sin (radians deg)) 0  (- sin (radians deg)) (cos (radians deg)) 0  0 0 1  0 0 0.

(** "After" multiplies from the right, "before" from the left. *)
Theorem C125_steps : forall m o deg x y z,
  translate_after m o = mul m (translation o) /\ translate_before m o = mul (translation o) m /\
  rotate_x_after m deg = mul m (turn_x deg) /\ rotate_x_before m deg = mul (turn_x deg) m /\
  rotate_y_after m deg = mul m (turn_y deg) /\ rotate_y_before m deg = mul (turn_y deg) m /\
  rotate_z_after m deg = mul m (turn_z deg) /\ rotate_z_before m deg = mul (turn_z deg) m /\
  scale_after m x y z = mul m (scaling x y z).
Proof.
  intros m o deg x y z. mats.
  unfold translate_after, translate_before, rotate_x_after, rotate_x_before, rotate_y_after, rotate_y_before, rotate_z_after,
    rotate_z_before, scale_after, set_matrix, padd, translation, scaling, turn_x, turn_y, turn_z, mul. go.
  repeat split; feq; ring.
Qed.

Lemma sin2_cos2' t : sin t * sin t + cos t * cos t = 1.
Proof. pose proof (sin2_cos2 t) as H. unfold Rsqr in H. exact H. Qed.
Lemma turns_orthonormal deg : orthonormal (turn_x deg) /\ orthonormal (turn_y deg) /\ orthonormal (turn_z deg).
Proof.
  pose proof (sin2_cos2' (radians deg)) as H. unfold orthonormal, turn_x, turn_y, turn_z, dot. go. repeat split; lra.
Qed.
(** Turning by the sum of two angles is turning twice; turning by zero does nothing. *)
Theorem C125_angles : forall a b,
  mul (turn_x a) (turn_x b) = turn_x (a + b) /\ mul (turn_y a) (turn_y b) = turn_y (a + b) /\ mul (turn_z a) (turn_z b) = turn_z (a + b) /\
  turn_x 0 = identity /\ turn_y 0 = identity /\ turn_z 0 = identity.
Proof.
  intros a b. assert (E : radians (a + b) = radians a + radians b) by (unfold radians; ring).
  assert (Z : radians 0 = 0) by (unfold radians; ring).
  unfold turn_x, turn_y, turn_z, mul, identity. go. rewrite E, Z, sin_plus, cos_plus, sin_0, cos_0. repeat split; feq; ring.
Qed.

(** Distances. *)
Definition rigid (m : mat) : Prop := forall p q, distance2 (transform m p) (transform m q) = distance2 p q.
Theorem C125_rigid : forall m, rigid m <-> orthonormal m.
Proof.
  intros m. split.
  - intros H.
    pose proof (H (Pt 1 0 0) (Pt 0 0 0)) as A1. pose proof (H (Pt 0 1 0) (Pt 0 0 0)) as A2. pose proof (H (Pt 0 0 1) (Pt 0 0 0)) as A3.
    pose proof (H (Pt 1 1 0) (Pt 0 0 0)) as A4. pose proof (H (Pt 0 1 1) (Pt 0 0 0)) as A5. pose proof (H (Pt 1 0 1) (Pt 0 0 0)) as A6. clear H.
    unfold orthonormal, dot, distance2, magnitude2, psub, transform in *. mats. go. repeat split; lra.
  - intros (H1 & H2 & H3 & H4 & H5 & H6) p q. unfold distance2, magnitude2, psub, transform. destruct p as [x y z], q as [x' y' z']. mats. unfold dot in *. go.
    set (dx := x - x'). set (dy := y - y'). set (dz := z - z').
    match goal with |- ?l = _ => transitivity (l - dx * dx * 0 - dy * dy * 0 - dz * dz * 0 - 2 * dx * dy * 0 - 2 * dy * dz * 0 - 2 * dz * dx * 0); [ring|] end.
    replace (dx * dx * 0) with (dx * dx * (m00 * m00 + m01 * m01 + m02 * m02 - 1)) by (rewrite H1; ring).
    replace (dy * dy * 0) with (dy * dy * (m10 * m10 + m11 * m11 + m12 * m12 - 1)) by (rewrite H2; ring).
    replace (dz * dz * 0) with (dz * dz * (m20 * m20 + m21 * m21 + m22 * m22 - 1)) by (rewrite H3; ring).
    replace (2 * dx * dy * 0) with (2 * dx * dy * (m00 * m10 + m01 * m11 + m02 * m12)) by (rewrite H4; ring).
    replace (2 * dy * dz * 0) with (2 * dy * dz * (m10 * m20 + m11 * m21 + m12 * m22)) by (rewrite H5; ring).
    replace (2 * dz * dx * 0) with (2 * dz * dx * (m20 * m00 + m21 * m01 + m22 * m02)) by (rewrite H6; ring).
    unfold dx, dy, dz. ring.
Qed.
Lemma rigid_mul a b : rigid a -> rigid b -> rigid (mul a b).
Proof. intros Ha Hb p q. rewrite !C123_product, Hb. apply Ha. Qed.
Lemma rigid_translation o : rigid (translation o).
Proof. intros p q. mats. unfold distance2, magnitude2, psub, transform, translation. go. ring. Qed.

(** Turning round a point keeps all distances and does not move the point; scaling with a centre does not move it either. *)
Theorem C125_round_point : forall m c x y z, rigid m ->
  rigid (rotate_round m c x y z) /\
  (forall p, transform m p = c -> transform (rotate_round m c x y z) p = c) /\
  forall sx sy sz p, transform m p = c -> transform (scale_with_center m c sx sy sz) p = c.
Proof.
  intros m c x y z Hm.
  assert (E : rotate_round m c x y z = mul (mul (mul (mul (mul m (translation (minus c))) (turn_x x)) (turn_y y)) (turn_z z)) (translation c)).
  { unfold rotate_round. rewrite !(proj1 (C125_steps _ _ 0 0 0 0)).
    rewrite (proj1 (proj2 (proj2 (C125_steps _ c _ 0 0 0)))).
    rewrite (proj1 (proj2 (proj2 (proj2 (proj2 (C125_steps _ c _ 0 0 0)))))).
    rewrite (proj1 (proj2 (proj2 (proj2 (proj2 (proj2 (proj2 (C125_steps _ c _ 0 0 0)))))))). reflexivity. }
  assert (Z : forall p, transform m p = c -> transform (mul m (translation (minus c))) p = Pt 0 0 0).
  { intros p Hp. rewrite C123_product, Hp. unfold transform, translation, minus. go. destruct c. go. feq; ring. }
  split; [|split].
  - rewrite E. repeat apply rigid_mul; try apply rigid_translation; try exact Hm; apply C125_rigid; apply turns_orthonormal.
  - intros p Hp. rewrite E, !(C123_product _ _ p), <- (C123_product m), (Z p Hp). unfold transform, turn_x, turn_y, turn_z, translation. go.
    destruct c. go. feq; ring.
  - intros sx sy sz p Hp. unfold scale_with_center. rewrite !(proj1 (C125_steps _ _ 0 0 0 0)).
    rewrite (proj2 (proj2 (proj2 (proj2 (proj2 (proj2 (proj2 (proj2 (C125_steps _ c 0 _ _ _))))))))).
    rewrite !(C123_product _ _ p), <- (C123_product m), (Z p Hp). unfold transform, scaling, translation. go. destruct c. go. feq; ring.
Qed.
Example C125_round_point_case : rigid identity /\ transform identity (Pt 1 2 3) = Pt 1 2 3.
Proof. split; [apply C125_rigid; unfold orthonormal, identity, dot; go; repeat split; ring|apply (C123_identity identity)]. Qed.

(** ** C126: rotations about an axis, lengths, triangles *)

Lemma magnitude_square a : magnitude a * magnitude a = magnitude2 a.
Proof. unfold magnitude, magnitude2. apply sqrt_sqrt. nra. Qed.
Lemma magnitude_pos a : a <> Pt 0 0 0 -> 0 < magnitude a.
Proof.
  intros H. apply sqrt_lt_R0. destruct a as [x y z]. go.
  destruct (Req_dec x 0) as [->|Hx]; [destruct (Req_dec y 0) as [->|Hy]; [destruct (Req_dec z 0) as [->|Hz]|]|].
  - exfalso. apply H. reflexivity.
  - pose proof (Rsqr_pos_lt z Hz) as P. unfold Rsqr in P. nra.
  - pose proof (Rsqr_pos_lt y Hy) as P. unfold Rsqr in P. nra.
  - pose proof (Rsqr_pos_lt x Hx) as P. unfold Rsqr in P. nra.
Qed.
(** A normalized vector has length one and the same direction. *)
Theorem C126_normalize : forall a, a <> Pt 0 0 0 ->
  magnitude (normalize a) = 1 /\ pscale (normalize a) (magnitude a) = a /\ dot (normalize a) (normalize a) = 1.
Proof.
  intros a H. pose proof (magnitude_pos a H) as P. pose proof (magnitude_square a) as Q.
  unfold normalize. rewrite (proj2 (ltb_true 0 (magnitude a)) P).
  assert (D : px a / magnitude a * (px a / magnitude a) + py a / magnitude a * (py a / magnitude a) + pz a / magnitude a * (pz a / magnitude a) = 1).
  { transitivity (magnitude2 a / (magnitude a * magnitude a)); [unfold magnitude2; field; lra|]. rewrite Q. field. rewrite <- Q. nra. }
  split; [|split].
  - unfold magnitude at 1. go. rewrite D. apply sqrt_1.
  - unfold pscale. destruct a. go. feq; field; lra.
  - unfold dot. go. exact D.
Qed.
Example C126_normalize_case : normalize (Pt 3 0 4) = Pt (3 / 5) 0 (4 / 5).
Proof.
  assert (M : magnitude (Pt 3 0 4) = 5).
  { unfold magnitude. go. replace (3 * 3 + 0 * 0 + 4 * 4) with (5 * 5) by ring. apply sqrt_square. lra. }
  unfold normalize. rewrite M, (proj2 (ltb_true 0 5)) by lra. go. feq; unfold Rdiv; ring.
Qed.

(** The rotation about an axis by an angle (Rodrigues), as it acts on a point. *)
Definition turned (k : pt) (ang : R) (p : pt) : pt :=
  padd (padd (pscale p (cos ang)) (pscale (cross k p) (sin ang))) (pscale k (dot k p * (1 - cos ang))).

(** [SetRotation] turns about the axis, but the other way round: by the negative angle. *)
Theorem C126_rotation : forall deg axis p, axis <> Pt 0 0 0 ->
  transform (set_rotation deg axis) p = turned (normalize axis) (- radians deg) p.
Proof.
  intros deg axis p H. destruct (C126_normalize axis H) as (_ & _ & N1). unfold set_rotation. remember (normalize axis) as k eqn:Ek. clear Ek.
  remember (radians deg * / 2) as h eqn:Eh.
  assert (Er : - radians deg = - (2 * h)) by (rewrite Eh; field).
  rewrite Er. unfold turned. rewrite cos_neg, sin_neg, sin_2a. rewrite (cos_2a h).
  pose proof (sin2_cos2' h) as S1. destruct k as [a b c], p as [x y z]. unfold dot in *. go.
  unfold transform, padd, pscale, cross. go.
  assert (C2 : cos h * cos h = 1 - sin h * sin h) by lra.
  assert (A2 : c * c = 1 - a * a - b * b) by lra.
  feq.
  - nsatz.
  - nsatz.
  - nsatz.
Qed.

Lemma turned_axis k ang l : dot k k = 1 -> turned k ang (pscale k l) = pscale k l.
Proof.
  intros H. destruct k as [a b c]. unfold turned, padd, pscale, cross, dot in *. go.
  remember (cos ang) as cc. remember (sin ang) as ss. clear Heqcc Heqss. feq; nsatz.
Qed.
(** So it keeps all distances, the axis and the orientation. *)
Theorem C126_rotation_rigid : forall deg axis, axis <> Pt 0 0 0 ->
  rigid (set_rotation deg axis) /\ determinant (set_rotation deg axis) = 1 /\ transform (set_rotation deg axis) axis = axis.
Proof.
  intros deg axis H. destruct (C126_normalize axis H) as (_ & N2 & N1).
  split; [|split].
  - apply C125_rigid. unfold set_rotation. remember (normalize axis) as k eqn:Ek. clear Ek N2.
    pose proof (sin2_cos2' (radians deg * / 2)) as S1. destruct k as [a b c]. unfold orthonormal, dot in *. go.
    remember (sin (radians deg * / 2)) as s. remember (cos (radians deg * / 2)) as r. clear Heqs Heqr.
    assert (Q : (a * s) * (a * s) + (b * s) * (b * s) + (c * s) * (c * s) + r * r = 1) by nsatz.
    remember (a * s) as x. remember (b * s) as y. remember (c * s) as z. clear - Q. repeat split; nsatz.
  - unfold set_rotation. remember (normalize axis) as k eqn:Ek. clear Ek N2.
    pose proof (sin2_cos2' (radians deg * / 2)) as S1. destruct k as [a b c]. unfold determinant, dot, cross in *. go.
    remember (sin (radians deg * / 2)) as s. remember (cos (radians deg * / 2)) as r. clear Heqs Heqr.
    assert (Q : (a * s) * (a * s) + (b * s) * (b * s) + (c * s) * (c * s) + r * r = 1) by nsatz.
    remember (a * s) as x. remember (b * s) as y. remember (c * s) as z. clear - Q. nsatz.
  - rewrite (C126_rotation deg axis axis H).
    transitivity (turned (normalize axis) (- radians deg) (pscale (normalize axis) (magnitude axis))); [rewrite N2; reflexivity|].
    rewrite turned_axis by exact N1. exact N2.
Qed.
Example C126_rotation_case : Pt 0 0 5 <> Pt 0 0 0.
Proof. intros H. apply (f_equal pz) in H. go. lra. Qed.

(** About the third axis it is the opposite of [RotateZAfter]. *)
Lemma normalize_z : normalize (Pt 0 0 1) = Pt 0 0 1.
Proof.
  assert (M : magnitude (Pt 0 0 1) = 1) by (unfold magnitude; go; replace (0 * 0 + 0 * 0 + 1 * 1) with (1 * 1) by ring; apply sqrt_square; lra).
  unfold normalize. rewrite M, (proj2 (ltb_true 0 1)) by lra. go. feq; unfold Rdiv; rewrite Rinv_1; ring.
Qed.
Theorem C126_rotation_z : forall deg, set_rotation deg (Pt 0 0 1) = rotate_z_after identity (- deg).
Proof.
  intros deg. unfold set_rotation, rotate_z_after, identity. rewrite normalize_z. go.
  replace (radians (- deg)) with (- (2 * (radians deg * / 2))) by (unfold radians; field).
  rewrite cos_neg, sin_neg, sin_2a, cos_2a. pose proof (sin2_cos2' (radians deg * / 2)) as S1.
  feq; nsatz.
Qed.
(** So the two ways to turn by ninety degrees about the same axis give opposite turns. *)
Theorem C126_direction_refuted : exists deg p,
  transform (rotate_z_after identity deg) p = Pt 0 1 0 /\ transform (set_rotation deg (Pt 0 0 1)) p = Pt 0 (-1) 0.
Proof.
  exists 90, (Pt 1 0 0). rewrite C126_rotation_z. unfold rotate_z_after, identity, transform. go.
  replace (radians (Ropp 90)) with (- (PI / 2)) by (unfold radians; field). replace (radians 90) with (PI / 2) by (unfold radians; field).
  rewrite cos_neg, sin_neg, cos_PI2, sin_PI2. split; feq; ring.
Qed.
(** With a zero axis half a turn is no rotation: every point goes to the origin. *)
Theorem C126_zero_axis_refuted : exists deg axis, forall p, transform (set_rotation deg axis) p = Pt 0 0 0.
Proof.
  exists 180, (Pt 0 0 0). intros p. unfold set_rotation. 
  assert (N : normalize (Pt 0 0 0) = Pt 0 0 0).
  { unfold normalize, magnitude. go. replace (0 * 0 + 0 * 0 + 0 * 0) with 0 by ring. rewrite sqrt_0.
    rewrite (proj2 (ltb_false 0 0)) by lra. reflexivity. }
  rewrite N. go. replace (radians 180 * / 2) with (PI / 2) by (unfold radians; field). rewrite cos_PI2, sin_PI2.
  unfold transform. go. feq; ring.
Qed.

(** *** A new first vector *)
Lemma cross_perpendicular a b : dot a (cross a b) = 0 /\ dot b (cross a b) = 0.
Proof. mats. unfold dot, cross. go. split; ring. Qed.
Lemma dot_scale a b s : dot a (pscale b s) = s * dot a b.
Proof. mats. unfold dot, pscale. go. ring. Qed.
Lemma normalize_perp a b : b <> Pt 0 0 0 -> dot a b = 0 -> dot a (normalize b) = 0.
Proof.
  intros H E. destruct (C126_normalize b H) as (_ & N & _). rewrite <- N, dot_scale in E. pose proof (magnitude_pos b H). nra.
Qed.
Lemma dot_comm a b : dot a b = dot b a.
Proof. unfold dot. ring. Qed.
Lemma lagrange a b : dot (cross a b) (cross a b) = dot a a * dot b b - dot a b * dot a b.
Proof. mats. unfold dot, cross. go. ring. Qed.
Lemma dot_zero a : dot a a = 0 -> a = Pt 0 0 0.
Proof. destruct a as [x y z]. unfold dot. go. intros H. assert (x = 0) by nra. assert (y = 0) by nra. assert (z = 0) by nra. subst. reflexivity. Qed.

Definition upright (p : pt) : bool := point_equal p (Pt 0 0 1) s_epsilon || point_equal p (Pt 0 0 (-1)) s_epsilon.

(** The result is a rotation with the vector first, if the vector is not zero and, when it points up or down, the old second
    vector is not parallel to it. *)
Theorem C126_rotation_u : forall old v, v <> Pt 0 0 0 ->
  (upright (normalize v) = true -> cross (normalize v) (v_of old) <> Pt 0 0 0) ->
  orthonormal (set_rotation_u old v) /\ determinant (set_rotation_u old v) = 1 /\ u_of (set_rotation_u old v) = normalize v /\
  offset_of (set_rotation_u old v) = offset_of old.
Proof.
  intros old v H Hv. destruct (C126_normalize v H) as (_ & _ & N1). unfold set_rotation_u. fold (upright (normalize v)).
  remember (normalize v) as u eqn:Eu. clear Eu H.
  assert (Ends : forall b c, dot b b = 1 -> dot u b = 0 -> c = cross u b ->
            forall m, u_of m = u -> v_of m = b -> w_of m = c -> orthonormal m /\ determinant m = 1).
  { intros b c B1 UB -> m Mu Mv Mw. assert (C1 : dot (cross u b) (cross u b) = 1) by (rewrite lagrange, N1, B1, UB; ring).
    destruct (cross_perpendicular u b) as [P1 P2]. unfold orthonormal, determinant. rewrite Mu, Mv, Mw. split.
    - repeat split; try assumption. rewrite dot_comm. exact P1.
    - transitivity (dot u u * dot b b - dot u b * dot u b); [|rewrite N1, B1, UB; ring]. destruct u, b. unfold dot, cross. go. ring. }
  destruct (upright u) eqn:EU.
  - specialize (Hv eq_refl). set (w := normalize (cross u (v_of old))). set (x := cross w u).
    destruct (C126_normalize _ Hv) as (_ & _ & W1). fold w in W1.
    assert (UW : dot u w = 0) by (apply normalize_perp; [exact Hv|apply cross_perpendicular]).
    assert (X1 : dot x x = 1) by (unfold x; rewrite lagrange, N1, W1, (dot_comm w u), UW; ring).
    assert (X0 : x <> Pt 0 0 0) by (intros E; rewrite E in X1; unfold dot in X1; go; lra).
    destruct (C126_normalize x X0) as (_ & _ & NX1).
    assert (Nx : normalize x = x).
    { unfold normalize, magnitude. unfold dot in X1. rewrite X1, sqrt_1, (proj2 (ltb_true 0 1)) by lra. destruct x. go. feq; field. }
    match goal with |- orthonormal ?m /\ _ => assert (M : u_of m = u /\ v_of m = x /\ w_of m = w /\ offset_of m = offset_of old) end.
    { assert (V : v_of (set_u old u) = v_of old) by (destruct old; reflexivity).
      rewrite V. fold w. assert (Wm : w_of (set_w (set_u old u) w) = w) by (destruct w; reflexivity). rewrite Wm. fold x. rewrite Nx.
      destruct u, x, w, old. repeat split. }
    destruct M as (Mu & Mv & Mw & Mo). rewrite Mu, Mo. split; [|split; [|split; reflexivity]]; eapply (Ends x w); try eassumption.
    + unfold x. apply cross_perpendicular.
    + unfold x. clear - UW W1 N1. destruct u, w. unfold dot, cross in *. go. feq; nsatz.
    + unfold x. apply cross_perpendicular.
    + unfold x. clear - UW W1 N1. destruct u, w. unfold dot, cross in *. go. feq; nsatz.
  - set (z := cross (Pt 0 0 1) u).
    assert (Z0 : z <> Pt 0 0 0).
    { intros E. unfold z, cross in E. destruct u as [a b c]. go. injection E as E1 E2 E3. unfold dot in N1. go.
      assert (a = 0) by lra. assert (b = 0) by lra. subst a b.
      unfold upright, point_equal in EU. go. apply orb_false_iff in EU. destruct EU as [L1 L2]. apply ltb_false in L1, L2.
      assert (C : (c - 1) * (c + 1) = 0) by lra. unfold s_epsilon in *.
      destruct (Rmult_integral _ _ C) as [C1|C1]; [assert (c = 1) by lra|assert (c = -1) by lra]; subst c; lra. }
    destruct (C126_normalize z Z0) as (_ & _ & NZ).
    assert (UZ : dot u (normalize z) = 0) by (apply normalize_perp; [exact Z0|apply cross_perpendicular]).
    remember (normalize z) as n eqn:En. clear En.
    match goal with |- orthonormal ?m /\ _ => assert (M : u_of m = u /\ v_of m = n /\ w_of m = cross u n /\ offset_of m = offset_of old) end.
    { assert (V : v_of (set_v (set_u old u) n) = n) by (destruct n; reflexivity). rewrite V. destruct u, n, old. repeat split. }
    destruct M as (Mu & Mv & Mw & Mo). rewrite Mu, Mo.
    split; [|split; [|split; reflexivity]]; eapply (Ends n (cross u n)); try eassumption; reflexivity.
Qed.
(** A vector that is not upright, with any old matrix. *)
Example C126_rotation_u_case : upright (normalize (Pt 3 0 4)) = false.
Proof.
  rewrite C126_normalize_case. unfold upright, point_equal, s_epsilon. go. apply orb_false_iff. split; apply ltb_false; lra.
Qed.
(** Upright with an old second vector that is upright too: nothing is a rotation then; two rows are zero. *)
Theorem C126_rotation_u_refuted : exists old, orthonormal old /\ v_of (set_rotation_u old (Pt 0 0 1)) = Pt 0 0 0 /\
  w_of (set_rotation_u old (Pt 0 0 1)) = Pt 0 0 0.
Proof.
  exists (Mat 1 0 0 0 0 1 0 (-1) 0 0 0 0). split; [unfold orthonormal, dot; go; repeat split; ring|].
  set (old := Mat 1 0 0 0 0 1 0 (-1) 0 0 0 0).
  assert (N : normalize (Pt 0 0 0) = Pt 0 0 0).
  { unfold normalize, magnitude. go. replace (0 * 0 + 0 * 0 + 0 * 0) with 0 by ring. rewrite sqrt_0.
    rewrite (proj2 (ltb_false 0 0)) by lra. reflexivity. }
  assert (W : normalize (cross (Pt 0 0 1) (v_of (set_u old (Pt 0 0 1)))) = Pt 0 0 0).
  { replace (cross (Pt 0 0 1) (v_of (set_u old (Pt 0 0 1)))) with (Pt 0 0 0); [exact N|].
    unfold old, cross, set_u, set_matrix. go. feq; ring. }
  unfold set_rotation_u. rewrite normalize_z.
  replace (point_equal (Pt 0 0 1) (Pt 0 0 1) s_epsilon) with true by (symmetry; unfold point_equal, s_epsilon; go; apply ltb_true; lra).
  cbn [orb]. rewrite W.
  replace (cross (w_of (set_w (set_u old (Pt 0 0 1)) (Pt 0 0 0))) (Pt 0 0 1)) with (Pt 0 0 0).
  - rewrite N. split; reflexivity.
  - unfold set_w, set_u, set_matrix, cross. go. feq; ring.
Qed.

(** *** Flipped matrices *)
(** Exchanging two rows changes the sign of the determinant, and doing it twice changes nothing. *)
Theorem C126_flip : forall m, determinant (flip m) = - determinant m /\ flip (flip m) = m.
Proof.
  intros m. mats. unfold flip, determinant, set_v, set_u, set_matrix, dot, cross. go. split; [ring|reflexivity].
Qed.
(** A matrix that keeps distances counts as flipped exactly if it does not keep the orientation. *)
Theorem C126_is_flipped : forall m, orthonormal m -> (is_flipped m = true <-> determinant m < 0).
Proof.
  intros m H. assert (D : determinant m * determinant m = 1).
  { destruct H as (H1 & H2 & H3 & H4 & H5 & H6). unfold determinant.
    assert (G : forall u v w, dot u (cross v w) * dot u (cross v w) =
      dot u u * (dot v v * dot w w - dot v w * dot v w) - dot u v * (dot u v * dot w w - dot v w * dot w u)
      + dot w u * (dot u v * dot v w - dot v v * dot w u)) by (intros; mats; unfold dot, cross; go; ring).
    rewrite G, H1, H2, H3, H4, H5, H6. ring. }
  unfold is_flipped. fold (determinant m). rewrite ltb_true. split; intros L; [|lra].
  destruct (Rlt_le_dec (determinant m) 0) as [|P]; [assumption|]. exfalso. nra.
Qed.
Example C126_is_flipped_case : orthonormal identity /\ is_flipped identity = false /\ is_flipped (flip identity) = true.
Proof.
  split; [unfold orthonormal, identity, dot; go; repeat split; ring|]. split.
  - apply ltb_false. unfold identity, dot, cross. go. lra.
  - apply ltb_true. unfold flip, identity, set_v, set_u, set_matrix, dot, cross. go. lra.
Qed.
(** Small matrices count as flipped, and still do after they are flipped. *)
Theorem C126_is_flipped_refuted : exists m, 0 < determinant m /\ is_flipped m = true /\ is_flipped (flip m) = true.
Proof.
  exists (scaling (/ 100) (/ 100) (/ 100)). unfold determinant, is_flipped, flip, scaling, set_v, set_u, set_matrix, dot, cross. go.
  split; [lra|]. split; apply ltb_true; lra.
Qed.

(** *** Comparing matrices *)
Definition near (x y : R) : Prop := Rabs (x - y) < / 10000.
Theorem C126_is_equal : forall a b, is_equal a b = true <->
  near (m00 a) (m00 b) /\ near (m01 a) (m01 b) /\ near (m02 a) (m02 b) /\ near (m10 a) (m10 b) /\ near (m11 a) (m11 b) /\ near (m12 a) (m12 b) /\
  near (m20 a) (m20 b) /\ near (m21 a) (m21 b) /\ near (m22 a) (m22 b) /\ near (m30 a) (m30 b) /\ near (m31 a) (m31 b) /\ near (m32 a) (m32 b).
Proof.
  intros a b. unfold is_equal, entries, near. cbn [combine forallb fst snd]. rewrite !andb_true_iff, !ltb_true, !abs_Rabs. tauto.
Qed.
Theorem C126_is_equal_refl_sym : forall a b, is_equal a a = true /\ (is_equal a b = true -> is_equal b a = true).
Proof.
  intros a b. split.
  - apply C126_is_equal. unfold near. rewrite !Rminus_eq_0, Rabs_R0. lra.
  - rewrite !C126_is_equal. unfold near. rewrite (Rabs_minus_sym (m00 b)), (Rabs_minus_sym (m01 b)), (Rabs_minus_sym (m02 b)),
      (Rabs_minus_sym (m10 b)), (Rabs_minus_sym (m11 b)), (Rabs_minus_sym (m12 b)), (Rabs_minus_sym (m20 b)), (Rabs_minus_sym (m21 b)),
      (Rabs_minus_sym (m22 b)), (Rabs_minus_sym (m30 b)), (Rabs_minus_sym (m31 b)), (Rabs_minus_sym (m32 b)). tauto.
Qed.
(** Equality is not transitive. *)
Theorem C126_is_equal_refuted : exists a b c, is_equal a b = true /\ is_equal b c = true /\ is_equal a c = false.
Proof.
  exists (translation (Pt 0 0 0)), (translation (Pt (/ 15000) 0 0)), (translation (Pt (/ 7500) 0 0)).
  rewrite !C126_is_equal. unfold near, translation. go. rewrite !Rminus_eq_0, Rabs_R0.
  assert (A : Rabs (0 - / 15000) < / 10000) by (rewrite Rabs_minus_sym, Rabs_pos_eq; lra).
  assert (B : Rabs (/ 15000 - / 7500) < / 10000) by (rewrite Rabs_minus_sym, Rabs_pos_eq; lra).
  repeat split; try exact A; try exact B; try lra.
  apply not_true_iff_false. rewrite C126_is_equal. unfold near. go. intros (_ & _ & _ & _ & _ & _ & _ & _ & _ & H & _).
  rewrite Rabs_minus_sym, Rabs_pos_eq in H; lra.
Qed.

(** The conversions to the matrices of the interface and back lose nothing. *)
Theorem C126_interface : forall m s, from_smat (to_smat m) = m /\ to_smat (from_smat s) = s /\
  u_of (from_smat s) = Pt (s_ux s) (s_uy s) (s_uz s) /\ v_of (from_smat s) = Pt (s_vx s) (s_vy s) (s_vz s) /\
  w_of (from_smat s) = Pt (s_wx s) (s_wy s) (s_wz s) /\ offset_of (from_smat s) = Pt (s_ox s) (s_oy s) (s_oz s).
Proof. intros m s. mats. repeat split. Qed.

(** ** C127: triangles *)
Theorem C127_cross : forall a b, dot a (cross a b) = 0 /\ dot b (cross a b) = 0 /\
  magnitude2 (cross a b) = magnitude2 a * magnitude2 b - dot a b * dot a b.
Proof.
  intros a b. destruct (cross_perpendicular a b). repeat split; [assumption|assumption|exact (lagrange a b)].
Qed.

Lemma circle_equal a b f g : 2 * (f * dot a a + g * dot a b) = dot a a ->
  magnitude2 (psub (padd (pscale a f) (pscale b g)) a) = magnitude2 (padd (pscale a f) (pscale b g)).
Proof. intros H. destruct a, b. unfold magnitude2, psub, padd, pscale, dot in *. go. nsatz. Qed.

(** The centre has the same distance from the three points, this distance is the radius, and the centre is in their plane. *)
Theorem C127_circle : forall p0 p1 p2 c r2, circum_circle p0 p1 p2 = Some (c, r2) ->
  distance2 c p0 = r2 /\ distance2 c p1 = r2 /\ distance2 c p2 = r2 /\
  dot (psub c p0) (cross (psub p1 p0) (psub p2 p0)) = 0.
Proof.
  intros p0 p1 p2 c r2. unfold circum_circle.
  set (a := psub p1 p0). set (b := psub p2 p0).
  assert (D0 : dot b a = dot a b) by apply dot_comm.
  assert (D1 : dot (psub p2 p1) (psub p0 p1) = dot a a - dot a b) by (unfold a, b, dot, psub; mats; go; ring).
  assert (D2 : dot (psub p0 p2) (psub p1 p2) = dot b b - dot a b) by (unfold a, b, dot, psub; mats; go; ring).
  rewrite D0, D1, D2. set (A := dot a a). set (B := dot b b). set (D := dot a b).
  match goal with |- (if ?x then _ else _) = _ -> _ => destruct x eqn:E end; [discriminate|].
  apply ltb_false in E. rewrite abs_Rabs in E.
  set (s := D * (A - D) + (B - D) * D + (A - D) * (B - D)) in *.
  assert (Nz : s <> 0).
  { intros Z. rewrite Z, Rminus_0_r, Rabs_R0 in E. unfold s_epsilon in E. lra. }
  assert (Es : s = A * B - D * D) by (unfold s; ring).
  set (f0 := (D * (A - D) + (B - D) * D) * (/ 2 / s)). set (f1 := (D * (A - D) + (A - D) * (B - D)) * (/ 2 / s)).
  set (f2 := ((A - D) * (B - D) + (B - D) * D) * (/ 2 / s)).
  assert (F0 : f0 = 1 - f1 - f2) by (unfold f0, f1, f2; rewrite Es in *; field; exact Nz).
  assert (F1 : 2 * (f1 * A + f2 * D) = A) by (unfold f1, f2; rewrite Es in *; field; exact Nz).
  assert (F2 : 2 * (f2 * B + f1 * D) = B) by (unfold f1, f2; rewrite Es in *; field; exact Nz).
  clearbody f0 f1 f2. subst f0. intros [= <- <-].
  match goal with |- distance2 ?p _ = _ /\ _ => set (q := p) end.
  assert (Q : psub q p0 = padd (pscale a f1) (pscale b f2)).
  { unfold q, a, b, psub, padd, pscale. go. feq; ring. }
  assert (Q1 : psub q p1 = psub (psub q p0) a) by (unfold q, a, psub; go; feq; ring).
  assert (Q2 : psub q p2 = psub (psub q p0) b) by (unfold q, b, psub; go; feq; ring).
  split; [reflexivity|]. unfold distance2. rewrite Q1, Q2, Q. split; [apply circle_equal; exact F1|]. split.
  - replace (padd (pscale a f1) (pscale b f2)) with (padd (pscale b f2) (pscale a f1)) by (unfold padd, pscale; go; feq; ring).
    apply circle_equal. rewrite D0. exact F2.
  - clearbody a b. clear. mats. unfold dot, cross, padd, pscale. go. ring.
Qed.
(** There is a circle exactly if the triangle is not too small: four times the square of its area. *)
Theorem C127_circle_area : forall p0 p1 p2,
  (circum_circle p0 p1 p2 = None <-> 4 * (tri_area p0 p1 p2 * tri_area p0 p1 p2) < s_epsilon).
Proof.
  intros p0 p1 p2.
  assert (Ar : 4 * (tri_area p0 p1 p2 * tri_area p0 p1 p2) = magnitude2 (cross (psub p1 p0) (psub p2 p0))).
  { unfold tri_area. rewrite <- magnitude_square. field. }
  rewrite Ar. unfold circum_circle.
  match goal with |- context [ltb (abs (0 - ?x)) _] => assert (X : x = magnitude2 (cross (psub p1 p0) (psub p2 p0))) end.
  { mats. unfold magnitude2, dot, cross, psub. go. ring. }
  rewrite X, abs_Rabs.
  assert (P : 0 <= magnitude2 (cross (psub p1 p0) (psub p2 p0))) by (unfold magnitude2; nra).
  rewrite Rabs_minus_sym, Rminus_0_r, Rabs_pos_eq by exact P.
  match goal with |- context [ltb ?x ?y] => destruct (ltb x y) eqn:E end.
  - apply ltb_true in E. split; intros; [exact E|reflexivity].
  - apply ltb_false in E. split; intros; [discriminate|lra].
Qed.
(** The signed area is the area with a sign, and exchanging two points does not change the area. *)
Theorem C127_area : forall p1 p2 p3, Rabs (tri_area_signed p1 p2 p3) = tri_area p1 p2 p3 /\
  tri_area p2 p1 p3 = tri_area p1 p2 p3 /\ tri_area p1 p3 p2 = tri_area p1 p2 p3 /\
  (tri_area_signed p1 p2 p3 < 0 <-> pz (cross (psub p2 p1) (psub p3 p1)) < 0).
Proof.
  intros p1 p2 p3. split; [|split; [|split]].
  - unfold tri_area_signed, tri_area, magnitude. set (c := cross (psub p2 p1) (psub p3 p1)).
    pose proof (sqrt_pos (px c * px c + py c * py c + pz c * pz c)) as P.
    destruct (ltb (pz c) 0); [rewrite Rabs_left1 by lra|rewrite Rabs_pos_eq by lra]; lra.
  - unfold tri_area, magnitude. f_equal. f_equal. mats. unfold cross, psub. go. ring.
  - unfold tri_area, magnitude. f_equal. f_equal. mats. unfold cross, psub. go. ring.
  - unfold tri_area_signed. set (c := cross (psub p2 p1) (psub p3 p1)).
    pose proof (sqrt_pos (px c * px c + py c * py c + pz c * pz c)) as P.
    destruct (ltb (pz c) 0) eqn:E; [apply ltb_true in E|apply ltb_false in E]; split; intros; try lra.
    assert (0 < sqrt (px c * px c + py c * py c + pz c * pz c)) by (apply sqrt_lt_R0; nra). lra.
Qed.
Example C127_circle_case : exists c r2, circum_circle (Pt 0 0 0) (Pt 2 0 0) (Pt 0 2 0) = Some (c, r2).
Proof.
  destruct (circum_circle (Pt 0 0 0) (Pt 2 0 0) (Pt 0 2 0)) as [[c r2]|] eqn:E; [exists c, r2; reflexivity|].
  apply C127_circle_area in E. exfalso.
  assert (X : 4 * (tri_area (Pt 0 0 0) (Pt 2 0 0) (Pt 0 2 0) * tri_area (Pt 0 0 0) (Pt 2 0 0) (Pt 0 2 0)) = 16).
  { unfold tri_area. transitivity (magnitude (cross (psub (Pt 2 0 0) (Pt 0 0 0)) (psub (Pt 0 2 0) (Pt 0 0 0))) *
      magnitude (cross (psub (Pt 2 0 0) (Pt 0 0 0)) (psub (Pt 0 2 0) (Pt 0 0 0)))); [field|].
    rewrite magnitude_square. unfold magnitude2, cross, psub. go. ring. }
  rewrite X in E. unfold s_epsilon in E. lra.
Qed.
(** No edge is longer than the one given. *)
Theorem C127_longest_edge : forall p0 p1 p2,
  let e := longest_edge p0 p1 p2 in
  In e [(p0, p1); (p1, p2); (p2, p0)] /\
  forall f, In f [(p0, p1); (p1, p2); (p2, p0)] -> distance2 (fst f) (snd f) <= distance2 (fst e) (snd e).
Proof.
  intros p0 p1 p2. unfold longest_edge.
  destruct (ltb (distance2 p1 p2) (distance2 p0 p1)) eqn:E1;
    [destruct (ltb (distance2 p2 p0) (distance2 p0 p1)) eqn:E2|destruct (ltb (distance2 p2 p0) (distance2 p1 p2)) eqn:E2];
    first [apply ltb_true in E1|apply ltb_false in E1]; first [apply ltb_true in E2|apply ltb_false in E2]; cbv zeta;
    (split; [cbn [In]; tauto|]); intros f [<-|[<-|[<-|[]]]]; cbn [fst snd]; lra.
Qed.

Print Assumptions C123_product.
Print Assumptions C123_associative.
Print Assumptions C123_identity.
Print Assumptions C123_invert.
Print Assumptions C123_invert_points.
Print Assumptions C123_regular.
Print Assumptions C123_invert_refuted.
Print Assumptions C124_inverse_transform.
Print Assumptions C124_transform_back.
Print Assumptions C124_refuted.
Print Assumptions C124_two.
Print Assumptions C124_inverse_transform2.
Print Assumptions C125_steps.
Print Assumptions C125_angles.
Print Assumptions C125_rigid.
Print Assumptions C125_round_point.
Print Assumptions C126_normalize.
Print Assumptions C126_rotation.
Print Assumptions C126_rotation_rigid.
Print Assumptions C126_rotation_z.
Print Assumptions C126_direction_refuted.
Print Assumptions C126_zero_axis_refuted.
Print Assumptions C126_rotation_u.
Print Assumptions C126_rotation_u_refuted.
Print Assumptions C126_flip.
Print Assumptions C126_is_flipped.
Print Assumptions C126_is_flipped_refuted.
Print Assumptions C126_is_equal.
Print Assumptions C126_is_equal_refl_sym.
Print Assumptions C126_is_equal_refuted.
Print Assumptions C126_interface.
Print Assumptions C127_cross.
Print Assumptions C127_circle.
Print Assumptions C127_circle_area.
Print Assumptions C127_area.
Print Assumptions C127_longest_edge.
