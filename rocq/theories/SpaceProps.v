(** Property C135: lines and planes in space (SpaceModel.v). *)
From Coq Require Import Reals Bool Lra Psatz Nsatz.
From Verif Require Import TransModel TransProps LineModel LineProps AngleModel AngleProps SpaceModel.
Local Open Scope R_scope.

(** Points of lines, segments and planes. *)
Definition at3 (a b : pt) (t : R) (q : pt) : Prop := px q = px a + t * (px b - px a) /\ py q = py a + t * (py b - py a) /\ pz q = pz a + t * (pz b - pz a).
Definition in_plane (q pp v0 v1 : pt) : Prop := exists s t, px q = px pp + s * px v0 + t * px v1 /\ py q = py pp + s * py v0 + t * py v1 /\ pz q = pz pp + s * pz v0 + t * pz v1.
(** The volume of the three vectors. *)
Definition volume (u v w : pt) : R :=
  px u * (py v * pz w - pz v * py w) - py u * (px v * pz w - pz v * px w) + pz u * (px v * py w - py v * px w).

Lemma pt_eq a b : px a = px b -> py a = py b -> pz a = pz b -> a = b.
Proof. destruct a, b. cbn. intros -> -> ->. reflexivity. Qed.
Lemma mag_nn v : 0 <= magnitude v. Proof. apply sqrt_pos. Qed.
Lemma mag2_nn v : 0 <= magnitude2 v. Proof. unfold magnitude2. pose proof (Rle_0_sqr (px v)). pose proof (Rle_0_sqr (py v)). pose proof (Rle_0_sqr (pz v)). unfold Rsqr in *. lra. Qed.
Lemma mag_sq v : magnitude v * magnitude v = magnitude2 v. Proof. exact (sqrt_sqrt _ (mag2_nn v)). Qed.
Lemma mag2_zero v : magnitude2 v = 0 -> v = Pt 0 0 0.
Proof. unfold magnitude2. intros H. pose proof (Rle_0_sqr (px v)). pose proof (Rle_0_sqr (py v)). pose proof (Rle_0_sqr (pz v)). unfold Rsqr in *. apply pt_eq; cbn [px py pz]; apply Rsqr_0_uniq; unfold Rsqr; lra. Qed.
Lemma mag2_pos a b : a <> b -> 0 < magnitude2 (psub b a).
Proof. intros H. destruct (Rle_lt_or_eq_dec _ _ (mag2_nn (psub b a))) as [L|L]; [exact L|]. destruct H. symmetry in L. apply mag2_zero in L. unfold psub in L. injection L as X Y Z. apply pt_eq; lra. Qed.
Lemma mag_pos v : 0 < magnitude2 v -> 0 < magnitude v. Proof. intros H. apply sqrt_lt_R0. exact H. Qed.
Lemma mag_le u v : magnitude2 u <= magnitude2 v -> magnitude u <= magnitude v. Proof. intros H. apply sqrt_le_1_alt. exact H. Qed.
Lemma mag_scale v k : magnitude (pscale v k) = magnitude v * Rabs k.
Proof.
  unfold magnitude, pscale. cbn [px py pz]. replace (_ + _ + _) with ((px v * px v + py v * py v + pz v * pz v) * k²) at 1 by (unfold Rsqr; ring). rewrite sqrt_mult_alt by (apply (mag2_nn v)). rewrite sqrt_Rsqr_abs. reflexivity.
Qed.

(** The distance of a point from a line is the smallest of the distances from its points. *)
Theorem C135_distance : forall p a b, a <> b ->
  (exists t q, at3 a b t q /\ line3_distance p a b = magnitude (psub q p)) /\ forall t r, at3 a b t r -> line3_distance p a b <= magnitude (psub r p).
Proof.
  intros p a b Hn. pose proof (mag2_pos a b Hn) as M. pose proof (mag_pos _ M) as Mp. set (l := magnitude2 (psub b a)) in *.
  assert (Sq : forall t r, at3 a b t r -> magnitude2 (psub r p) = magnitude2 (cross (psub b a) (psub a p)) / l + l * (t + dot (psub b a) (psub a p) / l)²).
  { intros t r (X & Y & Z). assert (El : l = (px b - px a) * (px b - px a) + (py b - py a) * (py b - py a) + (pz b - pz a) * (pz b - pz a)) by reflexivity. clearbody l. unfold Rsqr. field_simplify_eq; [|lra].
    unfold magnitude2, psub, cross, dot. cbn [px py pz]. rewrite X, Y, Z, El. ring. }
  assert (D : line3_distance p a b * line3_distance p a b = magnitude2 (cross (psub b a) (psub a p)) / l).
  { unfold line3_distance. rewrite <- (mag_sq (cross (psub b a) (psub a p))). unfold l. rewrite <- mag_sq. field. lra. }
  assert (Dn : 0 <= line3_distance p a b) by (apply Rmult_le_pos; [apply mag_nn|left; apply Rinv_0_lt_compat; exact Mp]). split.
  - set (t := - (dot (psub b a) (psub a p) / l)). exists t, (Pt (px a + t * (px b - px a)) (py a + t * (py b - py a)) (pz a + t * (pz b - pz a))). assert (A : at3 a b t (Pt (px a + t * (px b - px a)) (py a + t * (py b - py a)) (pz a + t * (pz b - pz a)))) by (repeat split). split; [exact A|].
    unfold magnitude at 1. change (line3_distance p a b = sqrt (magnitude2 (psub (Pt (px a + t * (px b - px a)) (py a + t * (py b - py a)) (pz a + t * (pz b - pz a))) p))). rewrite (Sq t _ A). unfold t at 1. rewrite Rplus_opp_l, Rsqr_0, Rmult_0_r, Rplus_0_r, <- D. symmetry. apply sqrt_square. exact Dn.
  - intros t r A. rewrite <- (sqrt_square (line3_distance p a b)) by exact Dn. apply sqrt_le_1_alt. fold (magnitude2 (psub r p)). rewrite (Sq t r A), D. pose proof (Rle_0_sqr (t + dot (psub b a) (psub a p) / l)). assert (0 <= l * (t + dot (psub b a) (psub a p) / l)²) by (apply Rmult_le_pos; lra). lra.
Qed.

(** Above a point of the projection of the line, from its start on, the height is that of the line. *)
Theorem C135_vertical : forall a b p t, s_epsilon <= dist2 (P2 (px a) (py a)) (P2 (px b) (py b)) -> 0 <= t -> px p = px a + t * (px b - px a) -> py p = py a + t * (py b - py a) ->
  vertical_distance a b p = pz a + t * (pz b - pz a).
Proof.
  intros a b p t H Ht X Y. unfold vertical_distance. cbv zeta. set (d := dist2 (P2 (px a) (py a)) (P2 (px b) (py b))) in *. assert (D0 : 0 < d) by (unfold s_epsilon in H; lra).
  rewrite (proj2 (ltb_false (abs d) s_epsilon)) by (rewrite abs_Rabs, Rabs_pos_eq by lra; exact H).
  assert (E : dist2 (P2 (px a) (py a)) (P2 (px p) (py p)) = t * d).
  { unfold d, dist2. replace (sub2 (P2 (px p) (py p)) (P2 (px a) (py a))) with (scale2 (sub2 (P2 (px b) (py b)) (P2 (px a) (py a))) t) by (apply p2_eq; cbn [vx vy sub2 scale2]; [rewrite X|rewrite Y]; ring). fold (len2 (scale2 (sub2 (P2 (px b) (py b)) (P2 (px a) (py a))) t)). rewrite len2_scale, Rabs_pos_eq by exact Ht. unfold len2. ring. }
  rewrite E. destruct (negb (ltb (pz b) (pz a))); field; lra.
Qed.
(** Before the start of the line the height is that on the other side of the start. *)
Theorem C135_vertical_refuted : exists a b p, at3 a b (-1) p /\ vertical_distance a b p = 1 /\ pz p = -1.
Proof.
  exists (Pt 0 0 0), (Pt 1 0 1), (Pt (-1) 0 (-1)). split; [unfold at3; cbn [px py pz]; lra|]. split; [|reflexivity]. unfold vertical_distance. cbn [px py pz]. cbv zeta.
  rewrite (dist2_val (P2 0 0) (P2 1 0) 1), (dist2_val (P2 0 0) (P2 (-1) 0) 1) by (cbn [vx vy]; lra). rewrite abs_Rabs, Rabs_R1. rewrite (proj2 (ltb_false 1 s_epsilon)), (proj2 (ltb_false 1 0)) by (unfold s_epsilon; lra). cbn [negb]. field.
Qed.

Lemma normalize_pos v : 0 < magnitude2 v -> normalize v = Pt (px v / magnitude v) (py v / magnitude v) (pz v / magnitude v).
Proof. intros H. unfold normalize. cbv zeta. rewrite (proj2 (ltb_true 0 _)) by (apply mag_pos; exact H). reflexivity. Qed.
Lemma normalize_zero : normalize (Pt 0 0 0) = Pt 0 0 0.
Proof. unfold normalize, magnitude. cbn [px py pz]. replace (0 * 0 + 0 * 0 + 0 * 0) with 0 by ring. rewrite sqrt_0. rewrite (proj2 (ltb_false 0 0)) by lra. reflexivity. Qed.
Lemma eq_ish_true a b eps : Rabs (b - a) < eps -> eq_ish a b eps = true. Proof. intros H. unfold eq_ish. rewrite abs_Rabs. apply ltb_true. exact H. Qed.
Lemma eq_ish_false a b eps : eps <= Rabs (b - a) -> eq_ish a b eps = false. Proof. intros H. unfold eq_ish. rewrite abs_Rabs. apply ltb_false. exact H. Qed.

(** The points of a segment behind its start are on the line. *)
Theorem C135_on_line : forall p a b ceps reps t, 0 < ceps -> 0 < reps -> ceps * ceps <= magnitude2 (psub b a) -> 0 < t <= 1 -> at3 a b t p -> pt_on_line3 p a b ceps reps = true.
Proof.
  intros p a b ceps reps t Hc Hr Hl Ht (X & Y & Z). unfold pt_on_line3. cbv zeta. set (l := magnitude2 (psub b a)) in *. assert (L0 : 0 < l) by nra.
  rewrite eq_ish_false by (rewrite Rminus_0_l, Rabs_Ropp, Rabs_pos_eq by lra; exact Hl).
  assert (E : psub p a = pscale (psub b a) t) by (apply pt_eq; cbn [px py pz psub pscale]; lra).
  assert (Ml : 0 < magnitude2 (psub p a)) by (rewrite E; unfold magnitude2, pscale; cbn [px py pz]; replace (_ + _ + _) with (l * (t * t)) by (unfold l, magnitude2, psub; cbn [px py pz]; ring); apply Rmult_lt_0_compat; nra).
  rewrite (normalize_pos (psub b a)), (normalize_pos (psub p a)) by assumption. pose proof (mag_pos _ L0) as Mb. pose proof (mag_sq (psub b a)) as Q. fold l in Q.
  assert (C : dot (Pt (px (psub b a) / magnitude (psub b a)) (py (psub b a) / magnitude (psub b a)) (pz (psub b a) / magnitude (psub b a))) (Pt (px (psub p a) / magnitude (psub p a)) (py (psub p a) / magnitude (psub p a)) (pz (psub p a) / magnitude (psub p a))) = 1).
  { rewrite E, mag_scale, Rabs_pos_eq by lra. unfold dot, pscale. cbn [px py pz]. set (m := magnitude (psub b a)) in *. set (v := psub b a) in *. transitivity (magnitude2 v / (m * m)); [unfold magnitude2; field; lra|]. rewrite Q. fold l. field. lra. }
  rewrite C, eq_ish_true by (rewrite Rminus_diag_eq, Rabs_R0 by reflexivity; exact Hr). apply andb_true_iff.
  assert (Da : distance2 p a = t * t * l) by (unfold distance2; rewrite E; unfold l, magnitude2, pscale, psub; cbn [px py pz]; ring).
  assert (Db : distance2 p b = (1 - t) * (1 - t) * l) by (unfold distance2, l, magnitude2, psub; cbn [px py pz]; rewrite X, Y, Z; ring).
  rewrite Da, Db. split; apply le_ish_true; rewrite <- (Rmult_1_l l) at 2; (apply Rmult_le_compat_r; [lra|nra]).
Qed.
(** A point that is on the line by the test is close to the start of a short line, or in its direction up to the given cosine and
    not further from either end than the line is long. *)
Theorem C135_on_line_sound : forall p a b ceps reps, 0 < ceps -> 0 < reps <= 1 -> pt_on_line3 p a b ceps reps = true ->
  (magnitude2 (psub b a) < ceps * ceps /\ Rabs (px p - px a) < ceps /\ Rabs (py p - py a) < ceps /\ Rabs (pz p - pz a) < ceps) \/
  ((1 - reps) * (magnitude (psub b a) * magnitude (psub p a)) < dot (psub b a) (psub p a) /\
   magnitude2 (psub p a) < magnitude2 (psub b a) + ceps * ceps /\ magnitude2 (psub p b) < magnitude2 (psub b a) + ceps * ceps).
Proof.
  intros p a b ceps reps Hc Hr H. unfold pt_on_line3 in H. cbv zeta in H. set (l := magnitude2 (psub b a)) in *. pose proof (Rmult_lt_0_compat _ _ Hc Hc) as Q. assert (Ln : 0 <= l) by apply mag2_nn.
  destruct (Rlt_or_le l (ceps * ceps)) as [L|L].
  - left. rewrite eq_ish_true in H by (rewrite Rminus_0_l, Rabs_Ropp, Rabs_pos_eq by exact Ln; exact L). unfold eq_ish3 in H. rewrite !andb_true_iff, !ltb_true, !abs_Rabs in H. tauto.
  - right. rewrite eq_ish_false in H by (rewrite Rminus_0_l, Rabs_Ropp, Rabs_pos_eq by exact Ln; exact L). destruct (eq_ish _ 1 reps) eqn:E; [|discriminate]. unfold eq_ish in E. rewrite abs_Rabs, ltb_true in E. apply Rabs_def2 in E.
    assert (Le : forall x, le_ish x l (ceps * ceps) = true -> x < l + ceps * ceps) by (intros x; unfold le_ish; rewrite orb_true_iff, negb_true_iff, ltb_false, ltb_true; lra). rewrite andb_true_iff in H. destruct H as (H1 & H2). split; [|split; [exact (Le _ H1)|exact (Le _ H2)]].
    assert (L0 : 0 < l) by lra. destruct (Rle_lt_or_eq_dec _ _ (mag2_nn (psub p a))) as [Np|Np].
    + rewrite !normalize_pos in E by assumption. pose proof (mag_pos _ L0) as A. pose proof (mag_pos _ Np) as B. set (v := psub b a) in *. set (w := psub p a) in *.
      assert (X : dot (Pt (px v / magnitude v) (py v / magnitude v) (pz v / magnitude v)) (Pt (px w / magnitude w) (py w / magnitude w) (pz w / magnitude w)) = dot v w / (magnitude v * magnitude w)) by (unfold dot; cbn [px py pz]; field; lra).
      rewrite X in E. assert (C : 0 < magnitude v * magnitude w) by (apply Rmult_lt_0_compat; assumption). assert (Y : dot v w = dot v w / (magnitude v * magnitude w) * (magnitude v * magnitude w)) by (field; lra). rewrite Y. apply Rmult_lt_compat_r; lra.
    + exfalso. symmetry in Np. apply mag2_zero in Np. rewrite Np, normalize_zero in E. unfold dot in E. cbn [px py pz] in E. rewrite !Rmult_0_r in E. lra.
Qed.
(** The start of a line is not on it, since a vector of length 0 has no direction. *)
Theorem C135_start_refuted : exists a b, a <> b /\ forall ceps reps, 0 < ceps <= 1 -> 0 < reps <= 1 -> pt_on_line3 a a b ceps reps = false /\ pt_on_line3 b a b ceps reps = true.
Proof.
  exists (Pt 0 0 0), (Pt 1 0 0). split; [intros H; injection H; lra|]. intros ceps reps Hc Hr. split.
  - unfold pt_on_line3. cbv zeta. rewrite eq_ish_false by (unfold magnitude2, psub; cbn [px py pz]; rewrite Rminus_0_l, Rabs_Ropp, Rabs_pos_eq by lra; nra).
    replace (psub (Pt 0 0 0) (Pt 0 0 0)) with (Pt 0 0 0) by (apply pt_eq; cbn [px py pz psub]; ring). rewrite normalize_zero. unfold dot. cbn [px py pz]. rewrite !Rmult_0_r, !Rplus_0_r. rewrite eq_ish_false by (rewrite Rminus_0_r, Rabs_R1; lra). reflexivity.
  - apply (C135_on_line _ _ _ _ _ 1); try lra; [unfold magnitude2, psub; cbn [px py pz]; nra|unfold at3; cbn [px py pz]; lra].
Qed.

(** ** Planes *)
Lemma det_volume v0 v1 w : det_with v0 v1 w = volume v0 v1 w. Proof. unfold det_with, minor, volume. ring. Qed.
Lemma plane_iff q pp v0 v1 : (exists w, volume v0 v1 w <> 0) -> in_plane q pp v0 v1 <-> volume v0 v1 (psub q pp) = 0.
Proof.
  intros (w & Hw). split.
  - intros (s & t & X & Y & Z). unfold volume, psub. cbn [px py pz]. rewrite X, Y, Z. ring.
  - intros H. set (u := psub q pp) in *. exists (volume u v1 w / volume v0 v1 w), (volume v0 u w / volume v0 v1 w).
    assert (X : px u * volume v0 v1 w = volume u v1 w * px v0 + volume v0 u w * px v1 + volume v0 v1 u * px w) by (unfold volume; ring).
    assert (Y : py u * volume v0 v1 w = volume u v1 w * py v0 + volume v0 u w * py v1 + volume v0 v1 u * py w) by (unfold volume; ring).
    assert (Z : pz u * volume v0 v1 w = volume u v1 w * pz v0 + volume v0 u w * pz v1 + volume v0 v1 u * pz w) by (unfold volume; ring).
    rewrite H in X, Y, Z. assert (Ex : px q = px pp + px u) by (unfold u, psub; cbn [px]; ring). assert (Ey : py q = py pp + py u) by (unfold u, psub; cbn [py]; ring). assert (Ez : pz q = pz pp + pz u) by (unfold u, psub; cbn [pz]; ring).
    rewrite Ex, Ey, Ez. repeat split; apply (Rmult_eq_reg_r (volume v0 v1 w)); try exact Hw; field_simplify; try exact Hw; lra.
Qed.
(** If the line is not nearly parallel to the plane, the result is the only point that the line and the plane have in common. *)
Theorem C135_plane_point : forall stale a b pp v0 v1 ceps reps q r f, ceps <= magnitude (psub b a) -> / 100000000000000 <= Rabs (volume v0 v1 (psub b a)) ->
  intersect_plane stale a b pp v0 v1 ceps reps = Some (q, r, f) ->
  r = q /\ f = false /\ in_plane q pp v0 v1 /\ (exists t, at3 a b t q) /\ forall q' t, at3 a b t q' -> in_plane q' pp v0 v1 -> q' = q.
Proof.
  intros stale a b pp v0 v1 ceps reps q r f Hl Hv H. unfold intersect_plane in H. cbv zeta in H. rewrite eq_ish_false in H by (rewrite Rminus_0_l, Rabs_Ropp, Rabs_pos_eq by apply mag_nn; exact Hl).
  rewrite !det_volume in H. rewrite eq_ish_false in H by (rewrite Rminus_0_l, Rabs_Ropp; exact Hv). assert (V0 : volume v0 v1 (psub b a) <> 0) by (intros Z; rewrite Z, Rabs_R0 in Hv; lra).
  destruct (ge_ish _ _ _ && le_ish _ _ _); [|discriminate]. injection H as <- <- <-. split; [reflexivity|]. split; [reflexivity|]. assert (W : exists w, volume v0 v1 w <> 0) by (eexists; exact V0).
  set (g := - (volume v0 v1 (psub a pp) / volume v0 v1 (psub b a))). assert (A : at3 a b g (padd a (pscale (psub b a) g))) by (unfold at3, padd, pscale, psub; cbn [px py pz]; repeat split; ring).
  assert (Vt : forall t q', at3 a b t q' -> volume v0 v1 (psub q' pp) = volume v0 v1 (psub a pp) + t * volume v0 v1 (psub b a)) by (intros t q' (X & Y & Z); unfold volume, psub; cbn [px py pz]; rewrite X, Y, Z; ring).
  split; [apply plane_iff; [exact W|]; rewrite (Vt _ _ A); unfold g; field; exact V0|]. split; [exists g; exact A|].
  intros q' t Q P. apply plane_iff in P; [|exact W]. rewrite (Vt _ _ Q) in P. assert (Et : t = g) by (unfold g; apply (Rmult_eq_reg_r (volume v0 v1 (psub b a))); [|exact V0]; field_simplify; [lra|exact V0]).
  rewrite Et in Q. destruct Q as (X & Y & Z). destruct A as (X' & Y' & Z'). apply pt_eq; congruence.
Qed.
(** A point that the segment and the plane have in common is found. *)
Theorem C135_plane_found : forall stale a b pp v0 v1 ceps reps q t, 0 <= ceps <= magnitude (psub b a) -> / 100000000000000 <= Rabs (volume v0 v1 (psub b a)) -> 0 <= t <= 1 -> at3 a b t q -> in_plane q pp v0 v1 ->
  intersect_plane stale a b pp v0 v1 ceps reps = Some (q, q, false).
Proof.
  intros stale a b pp v0 v1 ceps reps q t Hl Hv Ht Q P. assert (V0 : volume v0 v1 (psub b a) <> 0) by (intros Z; rewrite Z, Rabs_R0 in Hv; lra). assert (W : exists w, volume v0 v1 w <> 0) by (eexists; exact V0).
  unfold intersect_plane. cbv zeta. rewrite eq_ish_false by (rewrite Rminus_0_l, Rabs_Ropp, Rabs_pos_eq by apply mag_nn; lra). rewrite !det_volume. rewrite eq_ish_false by (rewrite Rminus_0_l, Rabs_Ropp; exact Hv).
  apply plane_iff in P; [|exact W]. assert (Vt : volume v0 v1 (psub q pp) = volume v0 v1 (psub a pp) + t * volume v0 v1 (psub b a)) by (destruct Q as (X & Y & Z); unfold volume, psub; cbn [px py pz]; rewrite X, Y, Z; ring).
  rewrite Vt in P. assert (G : - (volume v0 v1 (psub a pp) / volume v0 v1 (psub b a)) = t) by (apply (Rmult_eq_reg_r (volume v0 v1 (psub b a))); [|exact V0]; field_simplify; [lra|exact V0]).
  rewrite G, ge_ish_true, le_ish_true by lra. cbn [andb]. assert (E : padd a (pscale (psub b a) t) = q) by (destruct Q as (X & Y & Z); apply pt_eq; cbn [px py pz padd pscale psub]; [rewrite X|rewrite Y|rewrite Z]; ring). rewrite E. reflexivity.
Qed.
(** No point is found if the line meets the plane further outside of the segment than the epsilon. *)
Theorem C135_plane_outside : forall stale a b pp v0 v1 ceps reps q t, 0 < ceps <= magnitude (psub b a) -> / 100000000000000 <= Rabs (volume v0 v1 (psub b a)) -> at3 a b t q -> in_plane q pp v0 v1 ->
  t * magnitude (psub b a) <= - ceps \/ magnitude (psub b a) + ceps <= t * magnitude (psub b a) -> intersect_plane stale a b pp v0 v1 ceps reps = None.
Proof.
  intros stale a b pp v0 v1 ceps reps q t Hl Hv Q P Ho. assert (V0 : volume v0 v1 (psub b a) <> 0) by (intros Z; rewrite Z, Rabs_R0 in Hv; lra). assert (W : exists w, volume v0 v1 w <> 0) by (eexists; exact V0).
  unfold intersect_plane. cbv zeta. rewrite eq_ish_false by (rewrite Rminus_0_l, Rabs_Ropp, Rabs_pos_eq by apply mag_nn; lra). rewrite !det_volume. rewrite eq_ish_false by (rewrite Rminus_0_l, Rabs_Ropp; exact Hv).
  apply plane_iff in P; [|exact W]. assert (Vt : volume v0 v1 (psub q pp) = volume v0 v1 (psub a pp) + t * volume v0 v1 (psub b a)) by (destruct Q as (X & Y & Z); unfold volume, psub; cbn [px py pz]; rewrite X, Y, Z; ring).
  rewrite Vt in P. assert (G : - (volume v0 v1 (psub a pp) / volume v0 v1 (psub b a)) = t) by (apply (Rmult_eq_reg_r (volume v0 v1 (psub b a))); [|exact V0]; field_simplify; [lra|exact V0]).
  rewrite G. set (m := magnitude (psub b a)) in *. assert (E : ceps = ceps / m * m) by (field; lra). assert (E0 : 0 < ceps / m) by (apply Rmult_lt_0_compat; [lra|apply Rinv_0_lt_compat; lra]). set (e := ceps / m) in *. unfold ge_ish, le_ish.
  destruct Ho as [Ho|Ho].
  - assert (t <= - e) by (apply (Rmult_le_reg_r m); lra). rewrite (proj2 (ltb_true t 0)), (proj2 (ltb_false (0 - e) t)) by lra. reflexivity.
  - assert (1 + e <= t) by (apply (Rmult_le_reg_r m); lra). rewrite (proj2 (ltb_true 1 t)), (proj2 (ltb_false t (1 + e))) by lra. cbn [negb orb]. rewrite andb_false_r. reflexivity.
Qed.
(** With the right normal vector the points of a plane are on it. *)
Theorem C135_on_plane : forall p pp v0 v1 ceps reps, 0 < reps -> in_plane p pp v0 v1 -> pt_on_plane (plane_normal v0 v1) p pp ceps reps = true.
Proof.
  intros p pp v0 v1 ceps reps Hr (s & t & X & Y & Z). unfold pt_on_plane. cbv zeta. destruct (eq_ish _ _ _); [reflexivity|]. apply eq_ish_true.
  assert (N : forall v, exists k, normalize v = pscale v k).
  { intros v. destruct (Rle_lt_or_eq_dec _ _ (mag2_nn v)) as [L|L]; [exists (/ magnitude v); rewrite normalize_pos by exact L; reflexivity|]. symmetry in L. apply mag2_zero in L. subst v. exists 0. rewrite normalize_zero. apply pt_eq; cbn [px py pz pscale]; ring. }
  unfold plane_normal. destruct (N (cross v0 v1)) as (k & ->). destruct (N (psub p pp)) as (j & ->). match goal with |- Rabs ?e < _ => replace e with 0 end; [rewrite Rabs_R0; exact Hr|].
  unfold dot, pscale, cross, psub. cbn [px py pz]. rewrite X, Y, Z. ring.
Qed.
(** With the right normal vector, a line that is very short or nearly parallel to the plane and starts on it is given as a whole. *)
Theorem C135_plane_parallel : forall a b pp v0 v1 ceps reps, 0 < reps -> magnitude (psub b a) < ceps \/ Rabs (volume v0 v1 (psub b a)) < / 100000000000000 -> in_plane a pp v0 v1 ->
  intersect_plane (plane_normal v0 v1) a b pp v0 v1 ceps reps = Some (a, b, true).
Proof.
  intros a b pp v0 v1 ceps reps Hr H I. unfold intersect_plane. cbv zeta. rewrite (C135_on_plane a pp v0 v1 ceps reps Hr I), det_volume. destruct (eq_ish (magnitude (psub b a)) 0 ceps) eqn:E; [reflexivity|].
  destruct H as [H|H]; [rewrite eq_ish_true in E by (rewrite Rminus_0_l, Rabs_Ropp, Rabs_pos_eq by apply mag_nn; exact H); discriminate|]. rewrite eq_ish_true by (rewrite Rminus_0_l, Rabs_Ropp; exact H). reflexivity.
Qed.
(** And a point that is said to be on the plane is close to the point given for the plane, or its distance from the plane, seen
    from that point, is below the other epsilon. *)
Theorem C135_on_plane_sound : forall p pp v0 v1 ceps reps, 0 < ceps -> 0 < magnitude2 (cross v0 v1) -> pt_on_plane (plane_normal v0 v1) p pp ceps reps = true ->
  magnitude2 (psub p pp) < ceps * ceps \/ Rabs (volume v0 v1 (psub p pp)) < reps * (magnitude (cross v0 v1) * magnitude (psub p pp)).
Proof.
  intros p pp v0 v1 ceps reps Hc Hn H. unfold pt_on_plane in H. cbv zeta in H. pose proof (mag2_nn (psub p pp)) as N. destruct (Rlt_or_le (magnitude2 (psub p pp)) (ceps * ceps)) as [L|L]; [left; exact L|right].
  rewrite eq_ish_false in H by (rewrite Rminus_0_l, Rabs_Ropp, Rabs_pos_eq by exact N; exact L). destruct (Rle_lt_or_eq_dec _ _ N) as [Np|Np].
  - unfold plane_normal in H. rewrite !normalize_pos in H by assumption. unfold eq_ish in H. rewrite abs_Rabs, ltb_true, Rminus_0_l, Rabs_Ropp in H. pose proof (mag_pos _ Hn) as A. pose proof (mag_pos _ Np) as B. set (v := psub p pp) in *. set (n := cross v0 v1) in *.
    assert (E : dot (Pt (px n / magnitude n) (py n / magnitude n) (pz n / magnitude n)) (Pt (px v / magnitude v) (py v / magnitude v) (pz v / magnitude v)) = volume v0 v1 v / (magnitude n * magnitude v)).
    { unfold dot. cbn [px py pz]. replace (volume v0 v1 v) with (dot n v) by (unfold dot, n, cross, volume; cbn [px py pz]; ring). unfold dot. field. lra. }
    rewrite E in H. unfold Rdiv in H. rewrite Rabs_mult, Rabs_inv, (Rabs_pos_eq (magnitude n * magnitude v)) in H by (apply Rmult_le_pos; lra). assert (C : 0 < magnitude n * magnitude v) by (apply Rmult_lt_0_compat; assumption).
    apply (Rmult_lt_compat_r (magnitude n * magnitude v)) in H; [|exact C]. rewrite Rmult_assoc, Rinv_l in H by lra. lra.
  - exfalso. pose proof (Rmult_lt_0_compat _ _ Hc Hc). lra.
Qed.
(** But the normal vector is a destroyed object when it is read: for a point of the plane and the same arguments both results
    are possible. *)
Theorem C135_on_plane_refuted : exists p pp v0 v1, in_plane p pp v0 v1 /\
  (exists stale, pt_on_plane stale p pp (/ 10000000) (/ 1000) = false) /\ exists stale, pt_on_plane stale p pp (/ 10000000) (/ 1000) = true.
Proof.
  exists (Pt 1 0 0), (Pt 0 0 0), (Pt 1 0 0), (Pt 0 1 0). assert (I : in_plane (Pt 1 0 0) (Pt 0 0 0) (Pt 1 0 0) (Pt 0 1 0)) by (exists 1, 0; cbn [px py pz]; lra). split; [exact I|]. split.
  - exists (Pt 1 0 0). unfold pt_on_plane. cbv zeta. replace (psub (Pt 1 0 0) (Pt 0 0 0)) with (Pt 1 0 0) by (apply pt_eq; cbn [px py pz psub]; ring).
    assert (M : magnitude2 (Pt 1 0 0) = 1) by (unfold magnitude2; cbn [px py pz]; ring). assert (M1 : magnitude (Pt 1 0 0) = 1) by (unfold magnitude; fold (magnitude2 (Pt 1 0 0)); rewrite M; apply sqrt_1).
    rewrite M, normalize_pos by lra. rewrite M1. rewrite eq_ish_false by (rewrite Rminus_0_l, Rabs_Ropp, Rabs_R1; lra). apply eq_ish_false. unfold dot. cbn [px py pz]. replace (0 - _) with (- (1)) by field. rewrite Rabs_Ropp, Rabs_R1. lra.
  - exists (plane_normal (Pt 1 0 0) (Pt 0 1 0)). apply C135_on_plane; [lra|exact I].
Qed.

(** A point above or below a point of a segment that is not vertical is on it if it is closer to that point than epsilon, and, if
    the end points do not count, not within epsilon of them in every coordinate. *)
Definition near3 (a p : pt) (eps : R) : Prop := Rabs (px a - px p) < eps /\ Rabs (py a - py p) < eps /\ Rabs (pz a - pz p) < eps.
Lemma eq_ish3_iff a p eps : eq_ish3 a p eps = true <-> near3 a p eps.
Proof. unfold eq_ish3, near3. rewrite !andb_true_iff, !ltb_true, !abs_Rabs. tauto. Qed.
Theorem C135_on_segment : forall p a b eps incl t, tiny < eps -> eps <= dist2 (P2 (px a) (py a)) (P2 (px b) (py b)) -> s_epsilon <= dist2 (P2 (px a) (py a)) (P2 (px b) (py b)) -> 0 <= t <= 1 ->
  px p = px a + t * (px b - px a) -> py p = py a + t * (py b - py a) ->
  pt_on_seg3 p a b eps incl = true <-> Rabs (pz p - (pz a + t * (pz b - pz a))) < eps /\ (incl = true \/ ~ near3 a p eps /\ ~ near3 b p eps).
Proof.
  intros p a b eps incl t He Hd Hs Ht X Y. unfold pt_on_seg3. cbv zeta. rewrite C134_on_line; [|exact He|lra|exists t; split; [exact Ht|split; [exact X|exact Y]]].
  rewrite (proj2 (ltb_false (dist2 (P2 (px a) (py a)) (P2 (px b) (py b))) eps) Hd). rewrite (C135_vertical a b (Pt (px p) (py p) 0) t Hs (proj1 Ht) X Y).
  assert (Z : eq_ish (pz p) (pz a + t * (pz b - pz a)) eps = true <-> Rabs (pz p - (pz a + t * (pz b - pz a))) < eps) by (unfold eq_ish; rewrite abs_Rabs, ltb_true, Rabs_minus_sym; tauto).
  destruct incl; cbn [negb andb]; [rewrite Z; tauto|]. pose proof (eq_ish3_iff a p eps) as A. pose proof (eq_ish3_iff b p eps) as B.
  destruct (eq_ish3 a p eps); cbn [orb]; [split; [discriminate|]; intros (_ & [E|(N & _)]); [discriminate|tauto]|].
  destruct (eq_ish3 b p eps); cbn [orb]; [split; [discriminate|]; intros (_ & [E|(_ & N)]); [discriminate|tauto]|].
  rewrite Z. split; [intros L; split; [exact L|]; right; split; [rewrite <- A|rewrite <- B]; discriminate|tauto].
Qed.
(** Every point of the segment is on it. *)
Corollary C135_on_segment_all : forall p a b eps t, tiny < eps -> eps <= dist2 (P2 (px a) (py a)) (P2 (px b) (py b)) -> s_epsilon <= dist2 (P2 (px a) (py a)) (P2 (px b) (py b)) -> 0 <= t <= 1 -> at3 a b t p ->
  pt_on_seg3 p a b eps true = true.
Proof. intros p a b eps t He Hd Hs Ht (X & Y & Z). apply (C135_on_segment p a b eps true t He Hd Hs Ht X Y). split; [|now left]. rewrite Z. unfold Rminus. rewrite Rplus_opp_r, Rabs_R0. pose proof tiny_pos. lra. Qed.
(** What is said to be on a segment is, seen from above, closer to its line than epsilon. *)
Theorem C135_on_segment_sound : forall p a b eps incl, tiny < eps -> tiny < dist2 (P2 (px a) (py a)) (P2 (px b) (py b)) -> pt_on_seg3 p a b eps incl = true ->
  exists q, on_line q (P2 (px a) (py a)) (P2 (px b) (py b)) /\ dist2 (P2 (px p) (py p)) q < eps.
Proof. intros p a b eps incl He Hd H. unfold pt_on_seg3 in H. cbv zeta in H. destruct (pt_on_line _ _ _ _) eqn:E; [|discriminate]. exact (proj1 (C134_on_line_sound _ _ _ _ He Hd E)). Qed.
(** On a vertical segment are the points between the heights of its ends, made longer or shorter by epsilon. *)
Theorem C135_on_vertical : forall p a b eps (incl : bool), 0 < eps -> px b = px a -> py b = py a -> px p = px a -> py p = py a ->
  pt_on_seg3 p a b eps incl = true <->
  if incl then Rmin (pz a) (pz b) - eps < pz p < Rmax (pz a) (pz b) + eps else Rmin (pz a) (pz b) + eps <= pz p <= Rmax (pz a) (pz b) - eps.
Proof.
  intros p a b eps incl He Bx By X Y. unfold pt_on_seg3. cbv zeta. rewrite Bx, By, X, Y. set (o := P2 (px a) (py a)).
  assert (S : sub2 o o = P2 0 0) by (apply p2_eq; cbn [vx vy sub2]; ring). assert (L : len2 (P2 0 0) = 0) by (unfold len2, mag2; cbn [vx vy]; rewrite Rmult_0_l, Rplus_0_l; apply sqrt_0).
  assert (P : pt_on_line o o o eps = true).
  { unfold pt_on_line, relative, point_by_angle. cbv zeta. rewrite S, L. cbn [vx vy scale2]. rewrite Rmult_0_r. rewrite (proj2 (ltb_false 0 0)) by lra. rewrite abs_Rabs. replace (0 - (0 + 0)) with 0 by ring. rewrite Rabs_R0. rewrite (proj2 (ltb_true 0 eps) He). reflexivity. }
  rewrite P. change (dist2 o o) with (len2 (sub2 o o)). rewrite S, L, (proj2 (ltb_true 0 eps) He). unfold ge_ish, le_ish, gt_ish, lt_ish, Rmin, Rmax.
  destruct (ltb_dec (pz a) (pz b)) as [[-> La]|[-> La]]; destruct (Rle_dec (pz a) (pz b)); destruct incl;
    rewrite ?andb_true_iff, ?orb_true_iff, ?negb_true_iff, ?ltb_true, ?ltb_false; lra.
Qed.

(** ** Concrete cases *)
Example ex_line3 : line3_distance (Pt 0 3 4) (Pt 0 0 0) (Pt 2 0 0) = 5.
Proof.
  unfold line3_distance, cross, psub, magnitude. cbn [px py pz]. replace (_ + _ + _) with (10 * 10) at 1 by ring. replace ((2 - 0) * (2 - 0) + (0 - 0) * (0 - 0) + (0 - 0) * (0 - 0)) with (2 * 2) by ring. rewrite !sqrt_square by lra. field.
Qed.
Example ex_vertical : vertical_distance (Pt 0 0 6) (Pt 4 0 2) (Pt 1 0 0) = 5.
Proof. rewrite (C135_vertical _ _ _ (/ 4)); cbn [px py pz]; try lra. rewrite (dist2_val _ _ 4) by (cbn [vx vy]; lra). unfold s_epsilon. lra. Qed.
Example ex_plane : intersect_plane (Pt 0 0 0) (Pt 1 1 (-1)) (Pt 1 1 3) (Pt 0 0 0) (Pt 1 0 0) (Pt 0 1 0) (/ 10000000) (/ 1000) = Some (Pt 1 1 0, Pt 1 1 0, false).
Proof.
  assert (M : magnitude (psub (Pt 1 1 3) (Pt 1 1 (-1))) = 4) by (unfold magnitude, psub; cbn [px py pz]; replace (_ + _ + _) with (4 * 4) by ring; apply sqrt_square; lra).
  apply (C135_plane_found _ _ _ _ _ _ _ _ _ (/ 4)).
  - rewrite M. lra.
  - unfold volume, psub. cbn [px py pz]. rewrite Rabs_pos_eq; lra.
  - lra.
  - unfold at3. cbn [px py pz]. lra.
  - exists 1, 1. cbn [px py pz]. lra.
Qed.
Example ex_plane_outside : intersect_plane (Pt 0 0 0) (Pt 1 1 1) (Pt 1 1 3) (Pt 0 0 0) (Pt 1 0 0) (Pt 0 1 0) (/ 10000000) (/ 1000) = None.
Proof.
  assert (M : magnitude (psub (Pt 1 1 3) (Pt 1 1 1)) = 2) by (unfold magnitude, psub; cbn [px py pz]; replace (_ + _ + _) with (2 * 2) by ring; apply sqrt_square; lra).
  apply (C135_plane_outside _ _ _ _ _ _ _ _ (Pt 1 1 0) (- / 2)).
  - rewrite M. lra.
  - unfold volume, psub. cbn [px py pz]. rewrite Rabs_pos_eq; lra.
  - unfold at3. cbn [px py pz]. lra.
  - exists 1, 1. cbn [px py pz]. lra.
  - rewrite M. left. lra.
Qed.
Example ex_on_segment : pt_on_seg3 (Pt 1 0 5) (Pt 0 0 6) (Pt 4 0 2) (/ 1000) false = true /\ pt_on_seg3 (Pt 1 0 4) (Pt 0 0 6) (Pt 4 0 2) (/ 1000) true = false /\ pt_on_seg3 (Pt 0 0 6) (Pt 0 0 6) (Pt 4 0 2) (/ 1000) false = false.
Proof.
  assert (D : dist2 (P2 0 0) (P2 4 0) = 4) by (apply dist2_val; cbn [vx vy]; lra). assert (T0 : tiny < / 1000) by (unfold tiny; lra). assert (S0 : s_epsilon <= 4) by (unfold s_epsilon; lra). split; [|split].
  - apply (C135_on_segment _ _ _ _ _ (/ 4)); cbn [px py pz]; rewrite ?D; try lra. split; [replace (5 - _) with 0 by field; rewrite Rabs_R0; lra|right]. unfold near3. cbn [px py pz]. split; intros (H & _); apply Rabs_def2 in H; lra.
  - apply not_true_is_false. intros H. apply (C135_on_segment _ _ _ _ _ (/ 4)) in H; cbn [px py pz] in *; rewrite ?D; try lra. destruct H as (H & _). apply Rabs_def2 in H. lra.
  - apply not_true_is_false. intros H. apply (C135_on_segment _ _ _ _ _ 0) in H; cbn [px py pz] in *; rewrite ?D; try lra. destruct H as (_ & [E|(N & _)]); [discriminate|]. apply N. unfold near3. cbn [px py pz]. unfold Rminus. rewrite !Rplus_opp_r, Rabs_R0. lra.
Qed.
Print Assumptions C135_distance.
Print Assumptions C135_vertical.
Print Assumptions C135_vertical_refuted.
Print Assumptions C135_on_line.
Print Assumptions C135_on_line_sound.
Print Assumptions C135_start_refuted.
Print Assumptions C135_plane_point.
Print Assumptions C135_plane_found.
Print Assumptions C135_plane_outside.
Print Assumptions C135_on_plane.
Print Assumptions C135_plane_parallel.
Print Assumptions C135_on_plane_sound.
Print Assumptions C135_on_plane_refuted.
Print Assumptions C135_on_segment.
Print Assumptions C135_on_segment_all.
Print Assumptions C135_on_segment_sound.
Print Assumptions C135_on_vertical.
