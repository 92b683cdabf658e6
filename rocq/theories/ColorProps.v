(** Property C128: colours (ColorModel.v). *)
From Coq Require Import ZArith Reals Lra Lia Bool Psatz.
From Verif Require Import ColorModel.
Local Open Scope R_scope.

Lemma ltb_true a b : ltb a b = true <-> a < b.
Proof. unfold ltb. destruct (Rlt_dec a b); split; intros; try assumption; try reflexivity; try discriminate; contradiction. Qed.
Lemma ltb_false a b : ltb a b = false <-> b <= a.
Proof. unfold ltb. destruct (Rlt_dec a b); split; intros; try discriminate; try reflexivity; lra. Qed.

(** ** Values *)

(** What the setters do: red and blue are stored as they are. *)
Theorem C128_set : forall c v, red (set_red c v) = v /\ green (set_red c v) = green c /\ blue (set_red c v) = blue c /\
  blue (set_blue c v) = v /\ red (set_blue c v) = red c /\ green (set_blue c v) = green c /\
  red (set_green c v) = red c /\ blue (set_green c v) = blue c.
Proof. intros. repeat split. Qed.
(** Green is not: every value from 1 to 255 is stored as 257 times as much. *)
Theorem C128_set_green : forall c v, (0 <= v < 256)%Z -> green (set_green c v) = (257 * v)%Z.
Proof.
  intros c v H. cbn [set_green green]. rewrite Z.shiftl_mul_pow2 by lia.
  assert (L : Z.land (v * 2 ^ 8) v = 0%Z).
  { apply Z.bits_inj'. intros n Hn. rewrite Z.land_spec, Z.bits_0. destruct (Z.ltb_spec n 8).
    - rewrite Z.mul_pow2_bits_low by lia. reflexivity.
    - rewrite (Z.bits_above_log2 v n); [apply andb_false_r|lia|].
      destruct (Z.eq_dec v 0) as [->|Hv]; [cbn; lia|]. apply Z.log2_lt_pow2; [lia|].
      apply Z.lt_le_trans with (2 ^ 8)%Z; [lia|]. apply Z.pow_le_mono_r; lia. }
  assert (E : Z.lor (v * 2 ^ 8) v = (v * 2 ^ 8 + v)%Z) by (rewrite (Z.add_nocarry_lxor _ _ L), (Z.lxor_lor _ _ L); reflexivity).
  rewrite E. change (2 ^ 8)%Z with 256%Z. ring.
Qed.
Theorem C128_set_green_refuted : exists c v, (0 <= v < 256)%Z /\ green (set_green c v) = 65535%Z.
Proof. exists black, 255%Z. split; [lia|reflexivity]. Qed.

(** ** The colour between two colours *)
Lemma Int_part_spec r z : r - 1 < IZR z <= r -> z = Int_part r.
Proof.
  intros [H1 H2]. destruct (base_Int_part r) as [B1 B2].
  assert (L1 : IZR z < IZR (Int_part r + 1)) by (rewrite plus_IZR; lra).
  assert (L2 : IZR (Int_part r) < IZR (z + 1)) by (rewrite plus_IZR; lra).
  apply lt_IZR in L1, L2. lia.
Qed.
Lemma Int_part_IZR z : Int_part (IZR z) = z.
Proof. symmetry. apply Int_part_spec. lra. Qed.
Lemma trunc_IZR z : trunc (IZR z) = z.
Proof.
  unfold trunc. destruct (Rle_dec 0 (IZR z)); [apply Int_part_IZR|]. rewrite <- opp_IZR, Int_part_IZR. lia.
Qed.
Lemma Int_part_bounds r a b : IZR a <= r -> r <= IZR b -> (a <= Int_part r <= b)%Z.
Proof.
  intros H1 H2. destruct (base_Int_part r) as [B1 B2]. split.
  - assert (L : IZR a < IZR (Int_part r + 1)) by (rewrite plus_IZR; lra). apply lt_IZR in L. lia.
  - apply le_IZR. lra.
Qed.
Lemma trunc_bounds r a b : (0 <= a)%Z -> IZR a <= r -> r <= IZR b -> (a <= trunc r <= b)%Z.
Proof.
  intros Ha H1 H2. unfold trunc. apply IZR_le in Ha. destruct (Rle_dec 0 r); [|lra]. apply Int_part_bounds; assumption.
Qed.
(** The ends of the gradient are the two colours, and what is between is between them. *)
Theorem C128_gradient_ends : forall l r, gradient l r 0 = l /\ gradient l r 100 = r.
Proof.
  intros l r.
  assert (E0 : forall a b, mix a b 0 = a) by (intros; unfold mix; replace (IZR (b - a) * (0 / 100) + IZR a) with (IZR a) by field; apply trunc_IZR).
  assert (E1 : forall a b, mix a b 100 = b) by (intros; unfold mix; replace (IZR (b - a) * (100 / 100) + IZR a) with (IZR b) by (rewrite minus_IZR; field); apply trunc_IZR).
  destruct l as [l1 l2 l3], r as [r1 r2 r3]. unfold gradient. cbn [red green blue]. rewrite !E0, !E1. split; reflexivity.
Qed.
Definition between (a b v : Z) : Prop := (Z.min a b <= v <= Z.max a b)%Z.
Theorem C128_gradient : forall l r p, 0 <= p <= 100 ->
  (0 <= red l /\ 0 <= green l /\ 0 <= blue l /\ 0 <= red r /\ 0 <= green r /\ 0 <= blue r)%Z ->
  let c := gradient l r p in
  between (red l) (red r) (red c) /\ between (green l) (green r) (green c) /\ between (blue l) (blue r) (blue c).
Proof.
  intros l r p Hp (H1 & H2 & H3 & H4 & H5 & H6).
  assert (E : forall a b, (0 <= a)%Z -> (0 <= b)%Z -> between a b (mix a b p)).
  { intros a b Ha Hb. unfold mix, between. rewrite minus_IZR. set (q := p / 100).
    assert (Hq : 0 <= q <= 1) by (unfold q; lra).
    destruct (Z_le_gt_dec a b) as [L|L].
    - rewrite Z.min_l, Z.max_r by lia. apply trunc_bounds; [lia| |]; apply IZR_le in L; nra.
    - rewrite Z.min_r, Z.max_l by lia. assert (L' : (b <= a)%Z) by lia. apply trunc_bounds; [lia| |]; apply IZR_le in L'; nra. }
  cbn [gradient red green blue]. repeat split; apply E; assumption.
Qed.
Example C128_gradient_case : 0 <= 50 <= 100 /\ gradient black (Rgb 200 100 0) 50 = Rgb 100 50 0.
Proof.
  split; [lra|]. unfold gradient, mix. cbn [black red green blue].
  replace (IZR (200 - 0) * (50 / 100) + 0) with (IZR 100) by (cbn [Z.sub Z.add Z.opp]; lra).
  replace (IZR (100 - 0) * (50 / 100) + 0) with (IZR 50) by (cbn [Z.sub Z.add Z.opp]; lra).
  replace (IZR (0 - 0) * (50 / 100) + 0) with (IZR 0) by (cbn [Z.sub Z.add Z.opp]; lra).
  rewrite !trunc_IZR. reflexivity.
Qed.

(** ** CIE *)

Definition is_byte (z : Z) : Prop := (0 <= z <= 255)%Z.
Definition bytes (c : rgb) : Prop := is_byte (red c) /\ is_byte (green c) /\ is_byte (blue c).

Lemma clamp_bounds v : 0 <= clamp v <= 1.
Proof.
  unfold clamp. destruct (ltb v 0) eqn:E0; [apply ltb_true in E0|apply ltb_false in E0].
  - destruct (ltb 1 0) eqn:E1; [apply ltb_true in E1|]; lra.
  - destruct (ltb 1 v) eqn:E1; [lra|apply ltb_false in E1; lra].
Qed.
Lemma byte_of_bounds v : is_byte (byte_of v).
Proof. unfold is_byte, byte_of. pose proof (clamp_bounds (curve v)). apply trunc_bounds; [lia| |]; lra. Qed.
(** Whatever the numbers are, the values are from 0 to 255. *)
Theorem C128_range : forall c, bytes (rgb_of c).
Proof. intros c. unfold rgb_of. destruct (xyz_of c) as [[x y] z]. unfold bytes. cbn [red green blue]. repeat split; apply byte_of_bounds. Qed.

Lemma byte_R z : is_byte z -> 0 <= IZR z / 255 <= 1.
Proof. intros [H1 H2]. apply IZR_le in H1, H2. lra. Qed.
Lemma byte_min z : is_byte z -> z = 0%Z \/ / 255 <= IZR z / 255.
Proof. intros [H1 H2]. destruct (Z.eq_dec z 0) as [|N]; [left; assumption|right]. assert (L : (1 <= z)%Z) by lia. apply IZR_le in L. lra. Qed.
Lemma not_small x : / 1000000 <= x -> small x = false.
Proof. intros H. apply ltb_false. rewrite Rabs_pos_eq; lra. Qed.

Lemma xyz_not_small c : bytes c -> c <> black ->
  let r := IZR (red c) / 255 in let g := IZR (green c) / 255 in let b := IZR (blue c) / 255 in
  / 100000 <= to_x r g b /\ / 100000 <= to_y r g b /\ / 100000 <= to_z r g b.
Proof.
  intros (Hr & Hg & Hb) N r g b. pose proof (byte_R _ Hr) as Br. pose proof (byte_R _ Hg) as Bg. pose proof (byte_R _ Hb) as Bb.
  fold r in Br. fold g in Bg. fold b in Bb.
  assert (D : / 255 <= r \/ / 255 <= g \/ / 255 <= b).
  { destruct (byte_min _ Hr) as [Zr|]; [|left; assumption]. destruct (byte_min _ Hg) as [Zg|]; [|right; left; assumption].
    destruct (byte_min _ Hb) as [Zb|]; [|right; right; assumption]. exfalso. apply N. destruct c as [c1 c2 c3]. cbn [red green blue] in *. subst. reflexivity. }
  unfold to_x, to_y, to_z. destruct D as [D|[D|D]]; lra.
Qed.

(** A colour that is not black gets numbers of a real colour. *)
Theorem C128_of_rgb : forall c, bytes c -> c <> black ->
  0 < c_x (of_rgb c) /\ 0 < c_y (of_rgb c) /\ c_x (of_rgb c) + c_y (of_rgb c) < 1 /\ 0 < c_lum (of_rgb c) <= 100.
Proof.
  intros c Hc N. destruct (xyz_not_small c Hc N) as (X & Y & Z).
  destruct Hc as (Hr & Hg & Hb). pose proof (byte_R _ Hr) as Br. pose proof (byte_R _ Hg) as Bg. pose proof (byte_R _ Hb) as Bb.
  unfold of_rgb. set (r := IZR (red c) / 255) in *. set (g := IZR (green c) / 255) in *. set (b := IZR (blue c) / 255) in *. cbv zeta in *.
  assert (Ly : to_y r g b <= 1) by (unfold to_y; lra).
  set (x := to_x r g b) in *. set (y := to_y r g b) in *. set (z := to_z r g b) in *.
  unfold of_xyz. rewrite !not_small by lra. cbn [orb c_x c_y c_lum].
  assert (P : 0 < / (x + y + z)) by (apply Rinv_0_lt_compat; lra).
  assert (Q : (x + y + z) * / (x + y + z) = 1) by (apply Rinv_r; lra).
  unfold Rdiv. repeat split; nra.
Qed.
Example C128_of_rgb_case : bytes (Rgb 128 0 255) /\ Rgb 128 0 255 <> black.
Proof. split; [unfold bytes, is_byte; cbn [red green blue]; lia|discriminate]. Qed.

(** Colours of the same hue and saturation: the coordinates do not depend on the brightness. *)
Theorem C128_brightness : forall c d k, bytes c -> bytes d -> c <> black -> d <> black ->
  IZR (red d) = k * IZR (red c) -> IZR (green d) = k * IZR (green c) -> IZR (blue d) = k * IZR (blue c) ->
  c_x (of_rgb d) = c_x (of_rgb c) /\ c_y (of_rgb d) = c_y (of_rgb c) /\ c_lum (of_rgb d) = k * c_lum (of_rgb c).
Proof.
  intros c d k Hc Hd Nc Nd E1 E2 E3. destruct (xyz_not_small c Hc Nc) as (X & Y & Z). destruct (xyz_not_small d Hd Nd) as (X' & Y' & Z').
  cbv zeta in *. unfold of_rgb. rewrite E1, E2, E3 in *.
  assert (Ex : to_x (k * IZR (red c) / 255) (k * IZR (green c) / 255) (k * IZR (blue c) / 255) =
    k * to_x (IZR (red c) / 255) (IZR (green c) / 255) (IZR (blue c) / 255)) by (unfold to_x; field).
  assert (Ey : to_y (k * IZR (red c) / 255) (k * IZR (green c) / 255) (k * IZR (blue c) / 255) =
    k * to_y (IZR (red c) / 255) (IZR (green c) / 255) (IZR (blue c) / 255)) by (unfold to_y; field).
  assert (Ez : to_z (k * IZR (red c) / 255) (k * IZR (green c) / 255) (k * IZR (blue c) / 255) =
    k * to_z (IZR (red c) / 255) (IZR (green c) / 255) (IZR (blue c) / 255)) by (unfold to_z; field).
  rewrite Ex in X'. rewrite Ey in Y'. rewrite Ez in Z'.
  rewrite Ex, Ey, Ez. unfold of_xyz. rewrite !not_small by lra. cbn [orb c_x c_y c_lum].
  set (x := to_x _ _ _) in *. set (y := to_y _ _ _) in *. set (z := to_z _ _ _) in *.
  assert (K : k <> 0) by (intros ->; lra).
  repeat split; field; split; lra.
Qed.

(** The linear values come back but for the rounding of the constants. *)
Lemma xyz_of_rgb c : bytes c -> c <> black ->
  let r := IZR (red c) / 255 in let g := IZR (green c) / 255 in let b := IZR (blue c) / 255 in
  / 1000000 <= c_y (of_rgb c) -> xyz_of (of_rgb c) = (to_x r g b, to_y r g b, to_z r g b).
Proof.
  intros Hc N r g b Hy. destruct (xyz_not_small c Hc N) as (X & Y & Z). fold r g b in X, Y, Z. cbv zeta in X, Y, Z.
  unfold xyz_of. rewrite (not_small _ Hy). unfold of_rgb. fold r g b. cbv zeta.
  set (x := to_x r g b) in *. set (y := to_y r g b) in *. set (z := to_z r g b) in *.
  unfold of_xyz. rewrite !not_small by lra. cbn [orb c_x c_y c_lum]. f_equal; [f_equal|]; field; lra.
Qed.
Lemma y_not_small c : bytes c -> c <> black -> / 1000000 <= c_y (of_rgb c).
Proof.
  intros Hc N. destruct (xyz_not_small c Hc N) as (X & Y & Z).
  destruct Hc as (Hr & Hg & Hb). pose proof (byte_R _ Hr) as Br. pose proof (byte_R _ Hg) as Bg. pose proof (byte_R _ Hb) as Bb.
  unfold of_rgb. set (r := IZR (red c) / 255) in *. set (g := IZR (green c) / 255) in *. set (b := IZR (blue c) / 255) in *. cbv zeta in *.
  assert (L : to_x r g b + to_y r g b + to_z r g b <= 4) by (unfold to_x, to_y, to_z; lra).
  set (x := to_x r g b) in *. set (y := to_y r g b) in *. set (z := to_z r g b) in *.
  unfold of_xyz. rewrite !not_small by lra. cbn [orb c_y].
  apply Rmult_le_reg_r with (x + y + z); [lra|]. unfold Rdiv. rewrite Rmult_assoc, Rinv_l by lra. lra.
Qed.
Theorem C128_linear : forall c, bytes c -> c <> black ->
  let '(x, y, z) := xyz_of (of_rgb c) in
  Rabs (from_r x y z - IZR (red c) / 255) <= / 100000 /\ Rabs (from_g x y z - IZR (green c) / 255) <= / 100000 /\
  Rabs (from_b x y z - IZR (blue c) / 255) <= / 100000.
Proof.
  intros c Hc N. rewrite (xyz_of_rgb c Hc N (y_not_small c Hc N)).
  destruct Hc as (Hr & Hg & Hb). pose proof (byte_R _ Hr) as Br. pose proof (byte_R _ Hg) as Bg. pose proof (byte_R _ Hb) as Bb.
  set (r := IZR (red c) / 255) in *. set (g := IZR (green c) / 255) in *. set (b := IZR (blue c) / 255) in *.
  unfold from_r, from_g, from_b, to_x, to_y, to_z. repeat split; apply Rabs_le; lra.
Qed.

(** Black stays black. *)
Theorem C128_black : rgb_of (of_rgb black) = black.
Proof.
  assert (S0 : small 0 = true) by (apply ltb_true; rewrite Rabs_R0; lra).
  unfold of_rgb. cbn [black red green blue].
  replace (to_x (0 / 255) (0 / 255) (0 / 255)) with 0 by (unfold to_x; lra). unfold of_xyz. rewrite S0. cbn [orb].
  unfold rgb_of, xyz_of. cbn [c_y]. rewrite S0.
  assert (B0 : byte_of 0 = 0%Z).
  { unfold byte_of, curve. rewrite (proj2 (ltb_false _ _)) by lra. replace (1292 / 100 * 0) with 0 by lra.
    unfold clamp. rewrite (proj2 (ltb_false 0 0)) by lra. cbv zeta. rewrite (proj2 (ltb_false 1 0)) by lra. replace (0 * 255) with (IZR 0) by lra. apply trunc_IZR. }
  replace (from_r 0 0 0) with 0 by (unfold from_r; lra). replace (from_g 0 0 0) with 0 by (unfold from_g; lra).
  replace (from_b 0 0 0) with 0 by (unfold from_b; lra). rewrite B0. reflexivity.
Qed.

(** The curve of sRGB for values below one: brighter than the square root would make it. *)
Lemma curve_below v : 31308 / 10000000 < v < 1 -> 1055 / 1000 * v - 55 / 1000 < curve v < 1.
Proof.
  intros [H1 H2]. unfold curve. rewrite (proj2 (ltb_true _ _) H1). replace (1 / (24 / 10)) with (5 / 12) by field.
  assert (Lv : ln v < 0) by (rewrite <- ln_1; apply ln_increasing; lra).
  assert (P1 : Rpower v (5 / 12) < 1) by (unfold Rpower; rewrite <- exp_0; apply exp_increasing; nra).
  assert (P2 : v < Rpower v (5 / 12)).
  { rewrite <- (Rpower_1 v) at 1 by lra. unfold Rpower. apply exp_increasing. nra. }
  lra.
Qed.
Lemma curve_root v s : 31308 / 10000000 < v < 1 -> 0 < s -> s * s <= v -> 1055 / 1000 * s - 55 / 1000 < curve v.
Proof.
  intros [H1 H2] Hs S2. unfold curve. rewrite (proj2 (ltb_true _ _) H1). replace (1 / (24 / 10)) with (5 / 12) by field.
  assert (Lv : ln v < 0) by (rewrite <- ln_1; apply ln_increasing; lra).
  assert (P2 : sqrt v < Rpower v (5 / 12)).
  { rewrite <- Rpower_sqrt by lra. unfold Rpower. apply exp_increasing. nra. }
  assert (P3 : s <= sqrt v) by (rewrite <- (sqrt_square s) by lra; apply sqrt_le_1; nra).
  lra.
Qed.
Lemma byte_of_exact v z : is_byte z -> IZR z <= curve v * 255 -> curve v * 255 < IZR z + 1 -> curve v <= 1 -> byte_of v = z.
Proof.
  intros [Hz Hz'] H1 H2 H3. apply IZR_le in Hz. unfold byte_of, clamp. rewrite (proj2 (ltb_false (curve v) 0)) by lra. cbv zeta. rewrite (proj2 (ltb_false 1 (curve v))) by lra.
  unfold trunc. destruct (Rle_dec 0 (curve v * 255)); [|lra]. symmetry. apply Int_part_spec. lra.
Qed.

(** White does not stay white: red and green come back as 254. *)
Theorem C128_white_refuted : exists c, bytes c /\ red (rgb_of (of_rgb c)) <> red c /\ green (rgb_of (of_rgb c)) <> green c.
Proof.
  exists (Rgb 255 255 255). assert (Hb : bytes (Rgb 255 255 255)) by (unfold bytes, is_byte; cbn [red green blue]; lia).
  assert (N : Rgb 255 255 255 <> black) by discriminate. split; [exact Hb|].
  unfold rgb_of. rewrite (xyz_of_rgb _ Hb N (y_not_small _ Hb N)). cbn [red green blue].
  assert (O : IZR 255 / 255 = 1) by lra. rewrite O. set (x := to_x 1 1 1). set (y := to_y 1 1 1). set (z := to_z 1 1 1).
  assert (R1 : 9999999 / 10000000 < from_r x y z < 1) by (unfold from_r, x, y, z, to_x, to_y, to_z; lra).
  assert (G1 : 99999 / 100000 < from_g x y z < 1) by (unfold from_g, x, y, z, to_x, to_y, to_z; lra).
  pose proof (curve_below (from_r x y z) ltac:(lra)) as Cr. pose proof (curve_below (from_g x y z) ltac:(lra)) as Cg.
  rewrite (byte_of_exact (from_r x y z) 254), (byte_of_exact (from_g x y z) 254) by (try (split; lia); lra).
  split; discriminate.
Qed.
(** Middle grey becomes much brighter: the curve is applied on the way back only. *)
Theorem C128_grey_refuted : exists c, bytes c /\ (red c = 128 /\ 175 <= red (rgb_of (of_rgb c)))%Z.
Proof.
  exists (Rgb 128 128 128). assert (Hb : bytes (Rgb 128 128 128)) by (unfold bytes, is_byte; cbn [red green blue]; lia).
  assert (N : Rgb 128 128 128 <> black) by discriminate. split; [exact Hb|]. split; [reflexivity|].
  pose proof (C128_linear _ Hb N) as L. unfold rgb_of. rewrite (xyz_of_rgb _ Hb N (y_not_small _ Hb N)) in *.
  cbn [red green blue] in *. destruct L as (L & _ & _). set (v := from_r _ _ _) in *.
  pose proof (Rle_abs (v - 128 / 255)) as A1. pose proof (Rle_abs (- (v - 128 / 255))) as A2. rewrite Rabs_Ropp in A2.
  pose proof (curve_root v (708 / 1000) ltac:(lra) ltac:(lra) ltac:(lra)) as C1. pose proof (curve_below v ltac:(lra)) as C2.
  unfold byte_of, clamp. rewrite (proj2 (ltb_false (curve v) 0)) by lra. cbv zeta. rewrite (proj2 (ltb_false 1 (curve v))) by lra.
  apply (trunc_bounds _ 175 255); try lia; lra.
Qed.

Print Assumptions C128_set.
Print Assumptions C128_set_green.
Print Assumptions C128_set_green_refuted.
Print Assumptions C128_gradient_ends.
Print Assumptions C128_gradient.
Print Assumptions C128_range.
Print Assumptions C128_of_rgb.
Print Assumptions C128_brightness.
Print Assumptions C128_linear.
Print Assumptions C128_black.
Print Assumptions C128_white_refuted.
Print Assumptions C128_grey_refuted.
