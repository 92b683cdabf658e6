(** C66: doubles as text. *)
From Coq Require Import String List NArith ZArith Bool Lia.
From Coq Require Import ZifyN ZifyNat ZifyBool.
From Verif Require Import Bytes Txt UtfModel UtfProofs NumModel NumProofs FloatModel.
Import ListNotations.
Open Scope N_scope.
Ltac Zify.zify_post_hook ::= idtac.

(** ** Specification *)
(** The magnitudes of finite doubles: 53 significant bits, in units of 2^-1074. *)
Definition is_double (u : N) : Prop := (exists m k, u = m * 2 ^ k /\ m < 2 ^ 53) /\ u < 2 ^ 2098.
Definition valid (x : fl) : Prop := match x with Fin _ u => is_double u | _ => True end.
Definition point_ok (p : N) : Prop := p = 46 \/ p = 44.

(** ** Rounding *)
Lemma near_even_unique n d q : 0 < d -> 2 * (q * d) < 2 * n + d -> 2 * n < 2 * (q * d) + d -> near_even n d = q.
Proof.
  intros Hd H1 H2. destruct (near_even_err n d Hd) as (E1 & E2). set (r := near_even n d) in *.
  assert (r < q + 1) by nia. assert (q < r + 1) by nia. lia.
Qed.
Definition grid (n d : N) : N := N.log2 (n / d) - 52.
Lemma round_err n d : 0 < d ->
  2 * (round_u n d * d) <= 2 * n + d * 2 ^ grid n d /\ 2 * n <= 2 * (round_u n d * d) + d * 2 ^ grid n d.
Proof.
  intros Hd. unfold round_u. fold (grid n d). set (k := grid n d).
  assert (P : 0 < 2 ^ k) by (apply N.neq_0_lt_0, N.pow_nonzero; discriminate).
  set (b := 2 ^ k) in *.
  destruct (near_even_err n (d * b)) as (E1 & E2); [nia|]. set (q := near_even n (d * b)) in *. split; nia.
Qed.
Lemma grid_range n d : 0 < d -> 0 < grid n d -> 2 ^ (52 + grid n d) * d <= n /\ n < 2 ^ (53 + grid n d) * d.
Proof.
  intros Hd Hk. unfold grid in *. assert (Hq : 0 < n / d).
  { destruct (N.eq_dec (n / d) 0) as [E|E]; [rewrite E in Hk; cbn in Hk; lia|now apply N.neq_0_lt_0]. }
  destruct (N.log2_spec (n / d) Hq) as (L1 & L2).
  replace (52 + (N.log2 (n / d) - 52)) with (N.log2 (n / d)) by lia.
  replace (53 + (N.log2 (n / d) - 52)) with (N.succ (N.log2 (n / d))) by lia.
  pose proof (N.mul_div_le n d ltac:(lia)). pose proof (N.mul_succ_div_gt n d ltac:(lia)).
  set (a := 2 ^ N.log2 (n / d)) in *. set (b := 2 ^ N.succ (N.log2 (n / d))) in *. set (q := n / d) in *. split; nia.
Qed.
Lemma grid_upper n d : 0 < d -> n < 2 ^ (53 + grid n d) * d.
Proof.
  intros Hd. destruct (N.eq_dec (grid n d) 0) as [E|E]; [|apply grid_range; lia].
  rewrite E. unfold grid in E. assert (L : N.log2 (n / d) < 53) by lia.
  pose proof (N.mul_succ_div_gt n d ltac:(lia)). assert (n / d < 2 ^ 53).
  { destruct (N.eq_dec (n / d) 0) as [Z|Z]; [rewrite Z; reflexivity|]. apply N.log2_lt_pow2; [now apply N.neq_0_lt_0|lia]. }
  change (53 + 0) with 53. set (q := n / d) in *. nia.
Qed.
Lemma pow2_pos k : 0 < 2 ^ k.
Proof. apply N.neq_0_lt_0, N.pow_nonzero. discriminate. Qed.
(** A double at least as large as the start of a binade is a multiple of the spacing there. *)
Lemma double_multiple u k x : (exists m j, u = m * 2 ^ j /\ m < 2 ^ 53) -> 2 * u + 2 ^ k > 2 ^ (53 + k) -> x = u -> exists q, u = q * 2 ^ k.
Proof.
  intros (m & j & E & Hm) H _. destruct (N.le_gt_cases k j) as [L|L].
  - exists (m * 2 ^ (j - k)). rewrite <- N.mul_assoc, <- N.pow_add_r. now replace (j - k + k) with j by lia.
  - exfalso. replace k with (j + 1 + (k - j - 1)) in H by lia. set (i := k - j - 1) in *. rewrite !N.pow_add_r in H.
    pose proof (pow2_pos i). pose proof (pow2_pos j). change (2 ^ 1) with 2 in H.
    set (a := 2 ^ j) in *. set (b := 2 ^ i) in *. set (c := 2 ^ 53) in *.
    assert (Hc : m + 1 <= c) by lia. clear Hm. assert (m * a <= (c - 1) * a) by nia.
    assert (2 * (m * a) + 2 * a <= 2 * c * a) by nia. rewrite E in H. nia.
Qed.

(** ** Writing and reading back *)
Section Back.
Variables A B u : N.
Hypothesis A_pos : 0 < A.
Hypothesis B_pos : 0 < B.
Hypothesis u_double : exists m j, u = m * 2 ^ j /\ m < 2 ^ 53.
Let K := near_even (u * B) A.
Let k := grid (K * A) B.
Let u' := round_u (K * A) B.
Lemma fine_grid : 2 ^ k * B < A -> near_even (u' * B) A = K /\ 2 * (u' * B) <= 2 * (u * B) + 2 * A /\ 2 * (u * B) <= 2 * (u' * B) + 2 * A
  /\ 2 * (u' * B) <= 2 ^ 54 * A + A.
Proof.
  intros H. destruct (round_err (K * A) B B_pos) as (E1 & E2). fold k u' in E1, E2.
  destruct (near_even_err (u * B) A A_pos) as (F1 & F2). fold K in F1, F2.
  pose proof (grid_upper (K * A) B B_pos) as G. fold k in G. rewrite N.pow_add_r in G.
  repeat split.
  - apply near_even_unique; [exact A_pos|nia|nia].
  - nia.
  - nia.
  - change (2 ^ 54) with (2 * 2 ^ 53). set (c := 2 ^ 53) in *. set (b := 2 ^ k) in *. assert (c * b * B <= c * A) by nia. nia.
Qed.
Lemma coarse_grid : A < 2 ^ k * B -> 0 < k -> u' = u.
Proof.
  intros H Hk. destruct (near_even_err (u * B) A A_pos) as (F1 & F2). fold K in F1, F2.
  destruct (grid_range (K * A) B B_pos Hk) as (G1 & G2). fold k in G1, G2.
  destruct (double_multiple u k u u_double) as (q & Eq); [|reflexivity|].
  { replace (53 + k) with (1 + (52 + k)) by lia. rewrite (N.pow_add_r 2 1). change (2 ^ 1) with 2.
    set (a := 2 ^ (52 + k)) in *. set (b := 2 ^ k) in *. nia. }
  unfold u', round_u. fold (grid (K * A) B). fold k. rewrite Eq. f_equal. pose proof (pow2_pos k).
  apply near_even_unique; [nia| |]; set (b := 2 ^ k) in *; nia.
Qed.
End Back.
(** The rounded magnitude is a nearest one among all magnitudes with 53 significant bits. *)
Lemma round_nearest n d y : 0 < d -> (exists m j, y = m * 2 ^ j /\ m < 2 ^ 53) ->
  (Z.abs (Z.of_N (round_u n d * d) - Z.of_N n) <= Z.abs (Z.of_N (y * d) - Z.of_N n))%Z.
Proof.
  intros Hd Hy. destruct (round_err n d Hd) as (E1 & E2). set (r := round_u n d) in *. set (k := grid n d) in *.
  destruct (N.le_gt_cases (2 * y + 2 ^ k) (2 ^ (53 + k))) as [L|L].
  - destruct (N.eq_dec k 0) as [K0|K0].
    + rewrite K0 in *. change (2 ^ 0) with 1 in *. change (2 ^ (53 + 0)) with (2 * 2 ^ 52) in L. (* every natural number is a multiple *)
      destruct (N.eq_dec y r) as [->|Ne]; [lia|].
      assert (y + 1 <= r \/ r + 1 <= y) as [H|H] by lia; nia.
    + destruct (grid_range n d Hd) as (G1 & _); [fold k; lia|]. fold k in G1.
      replace (53 + k) with (1 + (52 + k)) in L by lia. rewrite (N.pow_add_r 2 1) in L. change (2 ^ 1) with 2 in L.
      set (a := 2 ^ (52 + k)) in *. set (b := 2 ^ k) in *. assert (2 * (y * d) + d * b <= 2 * n) by nia. lia.
  - destruct (double_multiple y k y Hy) as (q & Eq); [lia|reflexivity|].
    assert (exists q', r = q' * 2 ^ k) as (q' & Er) by (unfold r, round_u; fold (grid n d); fold k; eauto).
    pose proof (pow2_pos k). set (b := 2 ^ k) in *.
    destruct (N.eq_dec q q') as [->|Ne]; [subst; lia|].
    assert (q + 1 <= q' \/ q' + 1 <= q) as [H1|H1] by lia.
    + assert (y * d + b * d <= r * d) by (subst y r; nia). lia.
    + assert (r * d + b * d <= y * d) by (subst y r; nia). lia.
Qed.
Lemma round_double n d : 0 < d -> exists m j, round_u n d = m * 2 ^ j /\ m < 2 ^ 53.
Proof.
  intros Hd. unfold round_u. fold (grid n d). set (k := grid n d). pose proof (pow2_pos k) as Pk.
  destruct (near_even_err n (d * 2 ^ k)) as (E1 & _); [nia|]. pose proof (grid_upper n d Hd) as G. fold k in G. rewrite N.pow_add_r in G.
  set (q := near_even n (d * 2 ^ k)) in *. set (b := 2 ^ k) in *. set (c := 2 ^ 53) in *.
  assert (Hq : q <= c).
  { destruct (N.le_gt_cases q c) as [L|L]; [exact L|exfalso]. assert ((c + 1) * (d * b) <= q * (d * b)) by nia.
    assert (n < c * (d * b)) by nia. assert (0 < d * b) by nia. nia. }
  destruct (N.eq_dec q c) as [->|Ne].
  - exists (2 ^ 52), (1 + k). unfold c, b. split; [|reflexivity]. rewrite N.pow_add_r. change (2 ^ 53) with (2 ^ 52 * 2 ^ 1). lia.
  - exists q, k. split; [reflexivity|]. lia.
Qed.

Definition read_back (u : N) : N := round_u (micros u * units) million.
Lemma not_equal k : 2 ^ k * million <> units.
Proof.
  intros E. unfold units in E. destruct (N.le_gt_cases 1074 k) as [L|L].
  - replace k with (1074 + (k - 1074)) in E by lia. rewrite N.pow_add_r in E. pose proof (pow2_pos 1074). pose proof (pow2_pos (k - 1074)).
    set (a := 2 ^ 1074) in *. unfold million in E. nia.
  - replace 1074 with (k + (1074 - k)) in E by lia. rewrite N.pow_add_r in E. pose proof (pow2_pos k).
    assert (E2 : 2 ^ (1074 - k) = million) by (set (a := 2 ^ k) in *; set (b := 2 ^ (1074 - k)) in *; nia). unfold million in E2.
    destruct (N.le_gt_cases (1074 - k) 19) as [L2|L2].
    + assert (2 ^ (1074 - k) <= 2 ^ 19) by (apply N.pow_le_mono_r; [discriminate|exact L2]). change (2 ^ 19) with 524288 in *. lia.
    + assert (2 ^ 20 <= 2 ^ (1074 - k)) by (apply N.pow_le_mono_r; [discriminate|lia]). change (2 ^ 20) with 1048576 in *. lia.
Qed.
Lemma units_pos : 0 < units. Proof. apply pow2_pos. Qed.
Lemma million_pos : 0 < million. Proof. reflexivity. Qed.
Lemma read_back_cases u : (exists m j, u = m * 2 ^ j /\ m < 2 ^ 53) ->
  (2 ^ grid (micros u * units) million * million < units /\ micros (read_back u) = micros u
   /\ read_back u * million <= u * million + units /\ u * million <= read_back u * million + units
   /\ 2 * (read_back u * million) <= 2 ^ 54 * units + units)
  \/ (units < 2 ^ grid (micros u * units) million * million /\ read_back u = u).
Proof.
  intros Hu. destruct (N.lt_total (2 ^ grid (micros u * units) million * million) units) as [L|[L|L]].
  - left. split; [exact L|]. destruct (fine_grid units million u units_pos million_pos L) as (F1 & F2 & F3 & F4).
    fold (micros u) in *. fold (read_back u) in *. fold (micros (read_back u)) in F1.
    repeat split; [exact F1|lia|lia|exact F4].
  - destruct (not_equal _ L).
  - right. split; [exact L|]. apply (coarse_grid units million u units_pos million_pos Hu L).
    destruct (N.eq_dec (grid (micros u * units) million) 0) as [E|E]; [|fold (micros u); lia].
    rewrite E in L. change (2 ^ 0) with 1 in L. exfalso. assert (million <= units); [|lia]. unfold units.
    change million with (1000000). apply N.le_trans with (2 ^ 20); [discriminate|]. apply N.pow_le_mono_r; discriminate.
Qed.
Lemma read_back_stable u : (exists m j, u = m * 2 ^ j /\ m < 2 ^ 53) -> micros (read_back u) = micros u.
Proof. intros Hu. destruct (read_back_cases u Hu) as [(_ & H & _)|(_ & H)]; [exact H|now rewrite H]. Qed.
Lemma read_back_close u : (exists m j, u = m * 2 ^ j /\ m < 2 ^ 53) ->
  read_back u * million <= u * million + units /\ u * million <= read_back u * million + units.
Proof. intros Hu. destruct (read_back_cases u Hu) as [(_ & _ & H1 & H2 & _)|(_ & H)]; [auto|rewrite H; lia]. Qed.
Lemma read_back_fits u : is_double u -> read_back u < 2 ^ 2098.
Proof.
  intros (Hu & Hb). destruct (read_back_cases u Hu) as [(_ & _ & _ & _ & H)|(_ & H)]; [|now rewrite H].
  assert (Q : 2 ^ 1129 <= 2 ^ 2098) by (apply N.pow_le_mono_r; discriminate).
  assert (Q2 : 2 ^ 1129 = 2 ^ 55 * units) by (unfold units; rewrite <- N.pow_add_r; reflexivity).
  change (2 ^ 55) with (2 * 2 ^ 54) in Q2. pose proof units_pos. set (c := 2 ^ 54) in *. assert (1 <= c) by (unfold c; vm_compute; discriminate).
  unfold million in H. nia.
Qed.
(** From 2^33 on nothing is lost. *)
Lemma read_back_large u : (exists m j, u = m * 2 ^ j /\ m < 2 ^ 53) -> 2 ^ 33 * units <= u -> read_back u = u.
Proof.
  intros Hu L. destruct (read_back_cases u Hu) as [(G & _)|(_ & H)]; [exfalso|exact H].
  assert (M : 2 ^ 33 * million <= micros u).
  { unfold micros. destruct (near_even_err (u * million) units units_pos) as (_ & E). set (q := near_even (u * million) units) in *.
    pose proof units_pos. set (w := units) in *. destruct (N.le_gt_cases (2 ^ 33 * million) q) as [X|X]; [exact X|exfalso].
    assert (2 ^ 33 * million * w <= u * million) by nia. assert (q * w + w <= 2 ^ 33 * million * w) by nia. lia. }
  pose proof (grid_upper (micros u * units) million million_pos) as U. set (k := grid (micros u * units) million) in *.
  rewrite N.pow_add_r in U. pose proof units_pos. set (b := 2 ^ k) in *.
  assert (G2 : b < 2 ^ 1055).
  { destruct (N.le_gt_cases (2 ^ 1055) b) as [X|X]; [exfalso|exact X]. assert (E : units = 2 ^ 19 * 2 ^ 1055) by (unfold units; rewrite <- N.pow_add_r; reflexivity).
    change (2 ^ 19) with 524288 in E. unfold million in G. set (p := 2 ^ 1055) in *. nia. }
  assert (G3 : b * 2 <= 2 ^ 1055).
  { unfold b in *. apply N.pow_lt_mono_r_iff in G2; [|reflexivity]. replace (2 ^ k * 2) with (2 ^ (k + 1)) by (rewrite N.pow_add_r; reflexivity).
    apply N.pow_le_mono_r; [discriminate|lia]. }
  assert (E : units = 2 ^ 19 * 2 ^ 1055) by (unfold units; rewrite <- N.pow_add_r; reflexivity).
  set (p := 2 ^ 1055) in *. change (2 ^ 19) with 524288 in E. change (2 ^ 33) with 8589934592 in M. change (2 ^ 53) with 9007199254740992 in U.
  unfold million in *. assert (micros u * units >= 8589934592 * 1000000 * units) by nia. nia.
Qed.
(** Numbers with six decimals below 2^33 can be told apart as doubles. *)
Lemma decimal_kept v : v < 2 ^ 33 * million -> micros (round_u (v * units) million) = v /\ round_u (v * units) million < 2 ^ 2098.
Proof.
  intros L. destruct (round_err (v * units) million million_pos) as (E1 & E2). set (u := round_u (v * units) million) in *.
  set (k := grid (v * units) million) in *.
  assert (Hk : k <= 1054).
  { unfold k, grid. assert (v * units / million < 2 ^ 1107).
    { apply N.div_lt_upper_bound; [discriminate|]. replace (2 ^ 1107) with (2 ^ 33 * units) by (unfold units; rewrite <- N.pow_add_r; reflexivity).
      pose proof units_pos. set (c := 2 ^ 33) in *. set (w := units) in *. nia. }
    destruct (N.eq_dec (v * units / million) 0) as [Z|Z]; [rewrite Z; vm_compute; discriminate|].
    apply N.log2_lt_pow2 in H; [lia|now apply N.neq_0_lt_0]. }
  assert (G : 2 ^ k * million < units).
  { assert (2 ^ k <= 2 ^ 1054) by (apply N.pow_le_mono_r; [discriminate|exact Hk]).
    assert (E : units = 2 ^ 20 * 2 ^ 1054) by (unfold units; rewrite <- N.pow_add_r; reflexivity).
    change (2 ^ 20) with 1048576 in E. pose proof (pow2_pos 1054). set (p := 2 ^ 1054) in *. unfold million. lia. }
  split.
  - unfold micros. apply near_even_unique; [apply units_pos| |]; lia.
  - assert (Q : 2 ^ 1129 <= 2 ^ 2098) by (apply N.pow_le_mono_r; discriminate).
    assert (Q2 : 2 ^ 1129 = 2 ^ 55 * units) by (unfold units; rewrite <- N.pow_add_r; reflexivity).
    pose proof units_pos. change (2 ^ 55) with 36028797018963968 in Q2. change (2 ^ 33) with 8589934592 in L. set (w := units) in *. unfold million in *. nia.
Qed.

(** ** Text *)
Lemma digits_app ds : Forall digit ds -> forall r a n, digits 10 (ds ++ r) a n = digits 10 r (digits_val ds a) (n + nlen ds).
Proof.
  induction 1 as [|c ds Hc F IH]; intros r a n; cbn [app digits digits_val].
  - now rewrite N.add_0_r.
  - unfold digit_of. apply is_digit_iff in Hc. rewrite Hc. rewrite IH. replace (n + 1 + nlen ds) with (n + nlen (c :: ds)) by (unfold nlen; cbn [length]; lia). reflexivity.
Qed.
Lemma six_digits r : Forall digit (six r).
Proof.
  unfold six. apply Forall_forall. intros c Hc. apply in_map_iff in Hc as (p & <- & _). unfold digit.
  pose proof (N.mod_lt (r / p) 10 ltac:(discriminate)). set (x := r / p mod 10) in *. lia.
Qed.
Ltac Zify.zify_post_hook ::= Z.div_mod_to_equations.
Lemma six_val r a : r < million -> digits_val (six r) a = a * million + r.
Proof.
  intros H. unfold six, million in *. cbn [map digits_val].
  replace (is_digit (48 + r / 100000 mod 10)) with true by (unfold is_digit; lia).
  replace (is_digit (48 + r / 10000 mod 10)) with true by (unfold is_digit; lia).
  replace (is_digit (48 + r / 1000 mod 10)) with true by (unfold is_digit; lia).
  replace (is_digit (48 + r / 100 mod 10)) with true by (unfold is_digit; lia).
  replace (is_digit (48 + r / 10 mod 10)) with true by (unfold is_digit; lia).
  replace (is_digit (48 + r / 1 mod 10)) with true by (unfold is_digit; lia).
  rewrite N.div_1_r. lia.
Qed.
Ltac Zify.zify_post_hook ::= idtac.
Lemma six_len r : nlen (six r) = 6. Proof. reflexivity. Qed.
Section Point.
Variable point : N.
Hypothesis P : point_ok point.
Lemma point_digit b : digit_of b point = None.
Proof. destruct P as [-> | ->]; unfold digit_of; destruct (b =? 16); reflexivity. Qed.
Lemma mantissa_text v : mantissa point 10 (dec (v / million) ++ point :: six (v mod million)) = Some (v, 6, []).
Proof.
  destruct (dec_spec (v / million)) as (D1 & D2 & _). unfold mantissa. rewrite (digits_app _ D1). cbn [digits]. rewrite point_digit.
  rewrite dec_val, N.eqb_refl. cbv beta iota.
  rewrite <- (app_nil_r (six (v mod million))), (digits_app _ (six_digits _)). cbn [digits].
  rewrite six_val by (apply N.mod_lt; discriminate). rewrite six_len.
  replace (v / million * million + v mod million) with v by (rewrite (N.mul_comm _ million); apply N.div_mod; discriminate).
  replace (0 + nlen (dec (v / million)) + (0 + 6) =? 0) with false by lia. reflexivity.
Qed.
(** The first character is a digit, the next one is no x. *)
Lemma first_chars v r : exists c t, dec v ++ point :: r = c :: t /\ digit c /\ starts (T"x") t = false.
Proof.
  destruct (dec_spec v) as (D1 & D2 & _). destruct (dec v) as [|c ds]; [congruence|]. exists c, (ds ++ point :: r).
  split; [reflexivity|]. split; [exact (Forall_inv D1)|]. destruct ds as [|c2 ds].
  - destruct P as [-> | ->]; reflexivity.
  - pose proof (Forall_inv (Forall_inv_tail D1)) as H. unfold digit in H. cbn [app]. change (T"x") with [120]. cbn [starts].
    replace ((120 =? c2) || (120 =? c2 + 32) && (65 <=? c2) && (c2 <=? 90)) with false by lia. reflexivity.
Qed.
Lemma sign_split (neg : bool) s c t : s = c :: t -> digit c ->
  take_sign (skip_space (sign_text neg ++ s)) = (neg, s).
Proof.
  intros -> Hc. unfold digit in Hc. destruct neg; cbn [sign_text app]; [reflexivity|].
  rewrite skip_space_id by (unfold is_space; lia). unfold take_sign.
  destruct c as [|p]; [lia|]. do 6 (destruct p as [p|p|]; try reflexivity; try lia).
Qed.
(** The text of a number with six decimals, [K] millionths. *)
Definition decimal_text (neg : bool) (K : N) : list N := sign_text neg ++ dec (K / million) ++ point :: six (K mod million).
Lemma atof_decimal neg K : round_u (K * units) million < 2 ^ 2098 ->
  c_atof point (decimal_text neg K) = Ok (Fin neg (round_u (K * units) million)).
Proof.
  intros F. unfold decimal_text.
  destruct (first_chars (K / million) (six (K mod million))) as (c & t & E & Hc & Hx).
  unfold c_atof. rewrite (sign_split neg _ c t E Hc).
  assert (S0 : forall w, starts (T"inf") (c :: w) = false /\ starts (T"nan") (c :: w) = false /\ starts (T"0x") (c :: w) = ((48 =? c) && starts (T"x") w)).
  { intros w. unfold digit in Hc. change (T"inf") with [105; 110; 102]. change (T"nan") with [110; 97; 110]. change (T"0x") with [48; 120]. change (T"x") with [120]. cbn [starts].
    replace ((105 =? c) || (105 =? c + 32) && (65 <=? c) && (c <=? 90)) with false by lia.
    replace ((110 =? c) || (110 =? c + 32) && (65 <=? c) && (c <=? 90)) with false by lia.
    replace ((48 =? c) || (48 =? c + 32) && (65 <=? c) && (c <=? 90)) with (48 =? c) by lia. auto. }
  destruct (S0 t) as (S1 & S2 & S3). rewrite <- E in S1, S2, S3. rewrite S1, S2, S3, Hx, andb_false_r.
  rewrite mantissa_text. cbn [exponent]. unfold finish, scaled. cbn [Z.leb Z.sub Z.add Z.opp Z.compare Z.of_N].
  cbn [Z.pos_sub Z.opp]. change (10 ^ Z.to_N 6) with million. cbv beta iota.
  fold too_big in F. replace (too_big <=? round_u (K * units) million) with false; [reflexivity|]. symmetry. apply N.leb_gt. exact F.
Qed.
Lemma atof_fin neg u : is_double u -> c_atof point (fl_text point (Fin neg u)) = Ok (Fin neg (read_back u)).
Proof. intros Hu. apply atof_decimal. exact (read_back_fits u Hu). Qed.
Lemma decimal_chars neg K : Forall (fun c => c < 128 /\ c <> 0) (decimal_text neg K).
Proof.
  unfold decimal_text. apply Forall_app. split; [destruct neg; repeat constructor; discriminate|].
  apply Forall_app. split; [|constructor; [destruct P as [-> | ->]; split; [reflexivity|discriminate|reflexivity|discriminate]|]].
  - destruct (dec_spec (K / million)) as (D1 & _). eapply Forall_impl; [|exact D1]. unfold digit. cbv beta. lia.
  - eapply Forall_impl; [|apply six_digits]. unfold digit. cbv beta. lia.
Qed.
Lemma fl_text_chars x : Forall (fun c => c < 128 /\ c <> 0) (fl_text point x).
Proof.
  destruct x as [neg u|neg|neg]; [apply decimal_chars|destruct neg; repeat constructor; discriminate..].
Qed.
Lemma atof_plain s : Forall (fun c => c < 128 /\ c <> 0) s -> atof point s = c_atof point s.
Proof.
  intros H. unfold atof. rewrite UtfProofs.to_bytes_ascii.
  - rewrite upto_nul_id; [reflexivity|]. intros H0. destruct (proj1 (Forall_forall _ _) H 0 H0) as (_ & Z). now apply Z.
  - eapply Forall_impl; [|exact H]. cbv beta. lia.
Qed.
Lemma atof_text x : atof point (fl_text point x) = c_atof point (fl_text point x).
Proof. apply atof_plain, fl_text_chars. Qed.
End Point.

(** ** C66 *)
(** The text of a double, read and written again, is the same text: for every double and either point. *)
Theorem C66_stable : forall p x, point_ok p -> valid x ->
  exists y, atof p (fl_text p x) = Ok y /\ valid y /\ fl_text p y = fl_text p x.
Proof.
  intros p x P Hx. rewrite (atof_text p P). destruct x as [neg u|neg|neg].
  - exists (Fin neg (read_back u)). split; [now apply atof_fin|]. destruct Hx as (Hu & Hb). split.
    + split; [apply round_double, million_pos|now apply read_back_fits].
    + cbn [fl_text]. now rewrite (read_back_stable u Hu).
  - exists (Inf neg). split; [destruct neg; reflexivity|split; [exact I|reflexivity]].
  - exists (NaN neg). split; [destruct neg; reflexivity|split; [exact I|reflexivity]].
Qed.
(** The value read back differs by at most one millionth, has the same sign, and is the same from 2^33 on. *)
Theorem C66_close : forall p neg u, point_ok p -> is_double u ->
  exists u', atof p (fl_text p (Fin neg u)) = Ok (Fin neg u')
    /\ (Z.abs (Z.of_N u' - Z.of_N u) * 1000000 <= 2 ^ 1074)%Z
    /\ (2 ^ 33 * 2 ^ 1074 <= u -> u' = u).
Proof.
  intros p neg u P Hu. exists (read_back u). split; [rewrite (atof_text p P); now apply atof_fin|].
  destruct Hu as (Hu & _). destruct (read_back_close u Hu) as (H1 & H2). split; [|now apply read_back_large].
  change (2 ^ 1074)%Z with (Z.of_N units). unfold million in *. lia.
Qed.
(** A number with six decimals below 2^33 is written as it was read. *)
Theorem C66_text : forall p neg K, point_ok p -> K < 2 ^ 33 * 1000000 ->
  exists x, atof p (decimal_text p neg K) = Ok x /\ valid x /\ fl_text p x = decimal_text p neg K.
Proof.
  intros p neg K P L. destruct (decimal_kept K L) as (H1 & H2). exists (Fin neg (round_u (K * units) million)). split; [|split].
  - rewrite atof_plain by now apply decimal_chars. now apply atof_decimal.
  - split; [apply round_double, million_pos|exact H2].
  - cbn [fl_text]. rewrite H1. reflexivity.
Qed.
(** Reading gives a nearest double. *)
Theorem C66_nearest : forall p neg K, point_ok p -> K < 2 ^ 33 * 1000000 ->
  exists u, atof p (decimal_text p neg K) = Ok (Fin neg u) /\ forall y, is_double y ->
    (Z.abs (Z.of_N (u * 1000000) - Z.of_N (K * 2 ^ 1074)) <= Z.abs (Z.of_N (y * 1000000) - Z.of_N (K * 2 ^ 1074)))%Z.
Proof.
  intros p neg K P L. destruct (decimal_kept K L) as (H1 & H2). exists (round_u (K * units) million). split.
  - rewrite atof_plain by now apply decimal_chars. now apply atof_decimal.
  - intros y (Hy & _). exact (round_nearest (K * units) million y million_pos Hy).
Qed.
(** Values are not kept in general: 2^-30 is written as 0.000000. *)
Theorem C66_refuted : forall p, point_ok p -> exists x y, valid x /\ atof p (fl_text p x) = Ok y /\ y <> x.
Proof.
  intros p P. assert (D : is_double (2 ^ 1044)).
  { split; [exists 1, 1044; split; [now rewrite N.mul_1_l|reflexivity]|]. apply N.pow_lt_mono_r; reflexivity. }
  exists (Fin false (2 ^ 1044)), (Fin false (read_back (2 ^ 1044))). split; [exact D|]. split; [rewrite (atof_text p P); now apply atof_fin|].
  assert (E : read_back (2 ^ 1044) = 0) by (vm_compute; reflexivity). rewrite E. intros [= Z].
Qed.
(** 0.5 and -123.25. *)
Example C66_case : fl_text 46 (Fin false (2 ^ 1073)) = T"0.500000" /\ fl_text 46 (Fin true (493 * 2 ^ 1072)) = T"-123.250000"
  /\ atof 46 (T"-123.25") = Ok (Fin true (493 * 2 ^ 1072)) /\ atof 46 (T" 1.2325e2 ") = Ok (Fin false (493 * 2 ^ 1072))
  /\ atof 46 (T"0x1.8p1") = Ok (Fin false (3 * 2 ^ 1074)) /\ atof 46 (T"abc") = Ok (Fin false 0)
  /\ atof 44 (T"0.5") = Ok (Fin false 0) /\ atof 46 (T"1e400") = UB.
Proof. repeat split; vm_compute; reflexivity. Qed.
Print Assumptions C66_stable.
Print Assumptions C66_close.
Print Assumptions C66_text.
Print Assumptions C66_nearest.
Print Assumptions C66_refuted.
