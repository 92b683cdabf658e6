From Coq Require Import List NArith ZArith QArith Lia Bool.
From Coq Require Import ZifyN ZifyNat ZifyBool.
From Verif Require Import Bytes BytesProofs UtfModel UtfProofs NumModel.
Import ListNotations.
Open Scope N_scope.
Ltac Zify.zify_post_hook ::= Z.div_mod_to_equations.

Definition digit (c : N) : Prop := 48 <= c <= 57.
Lemma is_digit_iff c : is_digit c = true <-> digit c.
Proof. unfold is_digit, digit. lia. Qed.

Lemma dec_loop_spec : forall f n acc, n < 2 ^ N.of_nat f -> exists ds,
  dec_loop (S f) n acc = ds ++ acc /\ Forall digit ds /\ ds <> []
  /\ forall r a, digits_val (ds ++ r) a = digits_val r (a * 10 ^ nlen ds + n).
Proof.
  induction f as [|f IH]; intros n acc Hn.
  - change (2 ^ N.of_nat 0) with 1 in Hn. replace n with 0 by lia.
    exists [48]. split; [reflexivity|]. split; [constructor; [unfold digit; lia|constructor]|]. split; [discriminate|].
    intros r a. cbn [app digits_val]. change (is_digit 48) with true. cbv iota. f_equal. change (10 ^ nlen [48]) with 10. lia.
  - assert (E : dec_loop (S (S f)) n acc = if n / 10 =? 0 then (48 + n mod 10) :: acc
                 else dec_loop (S f) (n / 10) ((48 + n mod 10) :: acc)) by reflexivity.
    rewrite E. clear E. destruct (n / 10 =? 0) eqn:Ez.
    + exists [48 + n mod 10]. repeat split.
      * constructor; [unfold digit; lia|constructor].
      * discriminate.
      * intros r a. cbn [app digits_val]. replace (is_digit (48 + n mod 10)) with true by (unfold is_digit; lia).
        f_equal. change (10 ^ nlen [48 + n mod 10]) with 10. lia.
    + destruct (IH (n / 10) ((48 + n mod 10) :: acc)) as (ds & E1 & E2 & E3 & E4).
      { replace (N.of_nat (S f)) with (N.succ (N.of_nat f)) in Hn by lia. rewrite N.pow_succ_r' in Hn. lia. }
      exists (ds ++ [48 + n mod 10]). rewrite E1. repeat split.
      * rewrite <- app_assoc. reflexivity.
      * apply Forall_app. split; [exact E2|]. constructor; [unfold digit; lia|constructor].
      * destruct ds; discriminate.
      * intros r a. rewrite <- app_assoc, E4. cbn [app digits_val].
        replace (is_digit (48 + n mod 10)) with true by (unfold is_digit; lia).
        f_equal. rewrite nlen_app. change (nlen [48 + n mod 10]) with 1. rewrite N.pow_add_r, N.pow_1_r.
        generalize (10 ^ nlen ds). intros x. nia.
Qed.
Lemma dec_spec n : Forall digit (dec n) /\ dec n <> []
  /\ forall r a, digits_val (dec n ++ r) a = digits_val r (a * 10 ^ nlen (dec n) + n).
Proof.
  unfold dec. destruct (dec_loop_spec (N.to_nat (N.size n)) n []) as (ds & E1 & E2 & E3 & E4).
  - rewrite N2Nat.id. apply N.size_gt.
  - rewrite E1, app_nil_r. auto.
Qed.
Lemma dec_val n : digits_val (dec n) 0 = n.
Proof. destruct (dec_spec n) as (_ & _ & H). specialize (H [] 0). rewrite app_nil_r in H. rewrite H. reflexivity. Qed.

Lemma dec_loop_step f n acc : dec_loop (S (S f)) n acc = if n / 10 =? 0 then (48 + n mod 10) :: acc
  else dec_loop (S f) (n / 10) ((48 + n mod 10) :: acc).
Proof. reflexivity. Qed.
Lemma dec_loop_acc : forall f n acc, dec_loop f n acc = dec_loop f n [] ++ acc.
Proof.
  induction f as [|f IH]; intros n acc; [reflexivity|]. cbn [dec_loop].
  destruct (n / 10 =? 0); [reflexivity|]. rewrite IH, (IH _ [_]), <- app_assoc. reflexivity.
Qed.
Lemma dec_loop_fuel : forall f g n acc, n < 2 ^ N.of_nat f -> n < 2 ^ N.of_nat g ->
  dec_loop (S f) n acc = dec_loop (S g) n [] ++ acc.
Proof.
  induction f as [|f IH]; intros g n acc Hf Hg.
  - change (2 ^ N.of_nat 0) with 1 in Hf. replace n with 0 by lia. destruct g; reflexivity.
  - destruct g as [|g].
    + change (2 ^ N.of_nat 0) with 1 in Hg. replace n with 0 by lia. reflexivity.
    + rewrite !dec_loop_step. destruct (n / 10 =? 0); [reflexivity|].
      replace (N.of_nat (S f)) with (N.succ (N.of_nat f)) in Hf by lia. rewrite N.pow_succ_r' in Hf.
      replace (N.of_nat (S g)) with (N.succ (N.of_nat g)) in Hg by lia. rewrite N.pow_succ_r' in Hg.
      rewrite (IH g) by lia. rewrite (dec_loop_acc (S g) _ [48 + n mod 10]). rewrite <- app_assoc. reflexivity.
Qed.
Lemma dec_step n : 10 <= n -> dec n = dec (n / 10) ++ [48 + n mod 10].
Proof.
  intros H. unfold dec at 1. assert (Hs : n < 2 ^ N.of_nat (N.to_nat (N.size n))) by (rewrite N2Nat.id; apply N.size_gt).
  destruct (N.to_nat (N.size n)) as [|k] eqn:E.
  - change (2 ^ N.of_nat 0) with 1 in Hs. lia.
  - rewrite dec_loop_step. replace (n / 10 =? 0) with false by lia.
    unfold dec. apply dec_loop_fuel.
    + replace (N.of_nat (S k)) with (N.succ (N.of_nat k)) in Hs by lia. rewrite N.pow_succ_r' in Hs. lia.
    + rewrite N2Nat.id. apply N.size_gt.
Qed.
Lemma dec_1 n : n < 10 -> dec n = [48 + n].
Proof.
  intros H. unfold dec. destruct (N.to_nat (N.size n)) as [|k]; cbn [dec_loop]; rewrite ?N.div_small, N.mod_small by lia; reflexivity.
Qed.

(** The characters of a written integer: digits, or a minus sign followed by digits. *)
Lemma int_text_chars z : Forall (fun c => digit c \/ c = 45) (int_text z) /\ int_text z <> [].
Proof.
  unfold int_text. destruct (z <? 0)%Z.
  - destruct (dec_spec (Z.to_N (- z))) as (H & _). split; [|discriminate].
    constructor; [auto|]. eapply Forall_impl; [|exact H]. auto.
  - destruct (dec_spec (Z.to_N z)) as (H & H1 & _). split; [|exact H1].
    eapply Forall_impl; [|exact H]. auto.
Qed.
Lemma int_text_ascii z : Forall (fun c => c < 128) (int_text z).
Proof. eapply Forall_impl; [|apply int_text_chars]. unfold digit. cbv beta. lia. Qed.
Lemma int_text_notin z c : ~ digit c -> c <> 45 -> ~ In c (int_text z).
Proof. intros H1 H2 H. destruct (int_text_chars z) as [F _]. rewrite Forall_forall in F. destruct (F c H); auto. Qed.

Lemma c_atoi_eq b : c_atoi b = match skip_space b with
  | [] => int_result 0
  | c :: r => if c =? 45 then int_result (- Z.of_N (digits_val r 0))
              else if c =? 43 then int_result (Z.of_N (digits_val r 0))
              else int_result (Z.of_N (digits_val (c :: r) 0))
  end.
Proof.
  unfold c_atoi. destruct (skip_space b) as [|c r]; [reflexivity|].
  destruct c as [|p]; [reflexivity|]. do 6 (destruct p; try reflexivity).
Qed.
Lemma skip_space_id c r : is_space c = false -> skip_space (c :: r) = c :: r.
Proof. intros H. cbn [skip_space]. rewrite H. reflexivity. Qed.

Lemma atoi_ascii s : Forall (fun c => c < 128) s -> ~ In 0 s -> atoi s = c_atoi s.
Proof. intros H H0. unfold atoi. rewrite to_bytes_ascii by exact H. rewrite upto_nul_id by exact H0. reflexivity. Qed.

Lemma digits_atoi s : Forall digit s -> s <> [] -> atoi s = int_result (Z.of_N (digits_val s 0)).
Proof.
  intros F Hne. rewrite atoi_ascii.
  - rewrite c_atoi_eq. destruct s as [|c r]; [congruence|]. pose proof (Forall_inv F) as Hc. cbv beta in Hc. unfold digit in Hc.
    rewrite skip_space_id by (unfold is_space; lia).
    destruct (c =? 45) eqn:E1; [lia|]. destruct (c =? 43) eqn:E2; [lia|]. reflexivity.
  - eapply Forall_impl; [|exact F]. unfold digit. cbv beta. lia.
  - intros H. rewrite Forall_forall in F. specialize (F 0 H). unfold digit in F. lia.
Qed.

Lemma atoi_int_text z : (- 2147483648 <= z <= 2147483647)%Z -> atoi (int_text z) = Ok z.
Proof.
  intros Hz. unfold int_text. destruct (z <? 0)%Z eqn:E.
  - destruct (dec_spec (Z.to_N (- z))) as (F & _ & _). rewrite atoi_ascii.
    + rewrite c_atoi_eq, skip_space_id by reflexivity. cbn [N.eqb Pos.eqb]. rewrite dec_val.
      unfold int_result. replace (- Z.of_N (Z.to_N (- z)))%Z with z by lia.
      replace (_ && _) with true by lia. reflexivity.
    + constructor; [lia|]. eapply Forall_impl; [|exact F]. unfold digit. cbv beta. lia.
    + intros [H|H]; [discriminate|]. rewrite Forall_forall in F. specialize (F 0 H). unfold digit in F. lia.
  - destruct (dec_spec (Z.to_N z)) as (F & Hne & _). rewrite digits_atoi by assumption.
    rewrite dec_val. unfold int_result. replace (Z.of_N (Z.to_N z)) with z by lia.
    replace (_ && _) with true by lia. reflexivity.
Qed.

Lemma to_signed_small w z : 0 < w -> (- 2 ^ (Z.of_N w - 1) <= z < 2 ^ (Z.of_N w - 1))%Z -> to_signed w z = z.
Proof.
  intros Hw Hz. unfold to_signed. cbv zeta.
  assert (E : (2 ^ Z.of_N w = 2 * 2 ^ (Z.of_N w - 1))%Z).
  { rewrite <- Z.pow_succ_r by lia. f_equal. lia. }
  rewrite E. assert (0 < 2 ^ (Z.of_N w - 1))%Z by (apply Z.pow_pos_nonneg; lia).
  set (h := (2 ^ (Z.of_N w - 1))%Z) in *. destruct (Z.ltb_spec z 0).
  - assert ((z mod (2 * h))%Z = (z + 2 * h)%Z) as ->.
    { symmetry. apply (Z.mod_unique_pos _ _ (-1)); lia. }
    destruct (_ <? _)%Z eqn:E1; lia.
  - rewrite Z.mod_small by lia. destruct (_ <? _)%Z eqn:E1; lia.
Qed.
Lemma itoa_small z : (- 9223372036854775808 <= z < 9223372036854775808)%Z -> itoa z = int_text z.
Proof. intros H. unfold itoa. rewrite to_signed_small; [reflexivity|lia|]. change (2 ^ (Z.of_N 64 - 1))%Z with 9223372036854775808%Z. exact H. Qed.
Lemma itoa_N n : n < 9223372036854775808 -> itoa (Z.of_N n) = dec n.
Proof. intros H. rewrite itoa_small by lia. unfold int_text. destruct (_ <? _)%Z eqn:E; [lia|]. f_equal. lia. Qed.

Lemma to_unsigned_small w n : n < 2 ^ w -> to_unsigned w (Z.of_N n) = n.
Proof.
  intros H. unfold to_unsigned. rewrite Z.mod_small; [lia|]. split; [lia|].
  change 2%Z with (Z.of_N 2). rewrite <- N2Z.inj_pow. lia.
Qed.
Lemma all_digits_ok s : Forall digit s -> all_digits s = Ok true.
Proof.
  induction 1 as [|c r H _ IH]; [reflexivity|]. cbn [all_digits]. unfold digit in H.
  replace (255 <? c) with false by lia. replace (is_digit c) with true by (unfold is_digit; lia). exact IH.
Qed.
Lemma complete_ok s : Forall digit s -> s <> [] -> is_complete_number s = Ok true.
Proof. intros H Hn. unfold is_complete_number. rewrite all_digits_ok by exact H. destruct s; [congruence|reflexivity]. Qed.

(** ** Rounding *)
Lemma near_even_err n d : 0 < d -> 2 * (near_even n d * d) <= 2 * n + d /\ 2 * n <= 2 * (near_even n d * d) + d.
Proof.
  intros Hd. unfold near_even. cbv zeta. pose proof (N.div_mod n d ltac:(lia)) as E. pose proof (N.mod_lt n d ltac:(lia)).
  set (q := n / d) in *. set (r := n mod d) in *.
  assert (n = q * d + r) by lia.
  destruct (2 * r <? d) eqn:E1; [split; lia|]. destruct (d <? 2 * r) eqn:E2; [split; nia|].
  destruct (N.even q); split; nia.
Qed.
Lemma near_even_exact q d : 0 < d -> near_even (q * d) d = q.
Proof.
  intros Hd. unfold near_even. cbv zeta. rewrite N.div_mul, N.mod_mul by lia.
  replace (2 * 0 <? d) with true by lia. reflexivity.
Qed.

(** The scaled fraction of [rnd] and its range. *)
Lemma rnd_shape n d : 0 < n -> 0 < d -> exists up down,
  rnd (n, d) = (near_even (n * 2 ^ up) (d * 2 ^ down) * 2 ^ down, 2 ^ up)
  /\ 2 ^ 52 * (d * 2 ^ down) <= n * 2 ^ up /\ n * 2 ^ up < 2 ^ 53 * (d * 2 ^ down)
  /\ (n < 2 ^ 53 -> d = 1 -> exists q, n * 2 ^ up = q * (d * 2 ^ down)).
Proof.
  intros Hn Hd. unfold rnd. destruct (n =? 0) eqn:E0; [lia|]. clear E0. cbv zeta.
  pose proof (N.log2_spec n Hn) as [N1 N2]. pose proof (N.log2_spec d Hd) as [D1 D2].
  set (a := N.log2 n) in *. set (b := N.log2 d) in *.
  set (u := scale_up n d). set (w := scale_down n d).
  assert (Euw : u + a = b + 53 + w).
  { unfold u, w, scale_up, scale_down. fold a b. lia. }
  (* 2^(a+u) <= n 2^u < 2^(a+1+u), 2^(b+w) <= d 2^w < 2^(b+1+w) *)
  assert (P1 : 2 ^ (a + u) <= n * 2 ^ u) by (rewrite N.pow_add_r; apply N.mul_le_mono_r; exact N1).
  assert (P2 : n * 2 ^ u < 2 * 2 ^ (a + u)).
  { rewrite N.pow_add_r. rewrite N.pow_succ_r' in N2. assert (0 < 2 ^ u) by (apply N.neq_0_lt_0, N.pow_nonzero; lia). nia. }
  assert (P3 : 2 ^ (b + w) <= d * 2 ^ w) by (rewrite N.pow_add_r; apply N.mul_le_mono_r; exact D1).
  assert (P4 : d * 2 ^ w < 2 * 2 ^ (b + w)).
  { rewrite N.pow_add_r. rewrite N.pow_succ_r' in D2. assert (0 < 2 ^ w) by (apply N.neq_0_lt_0, N.pow_nonzero; lia). nia. }
  assert (P5 : 2 ^ (a + u) = 2 ^ 53 * 2 ^ (b + w)).
  { rewrite <- N.pow_add_r. f_equal. lia. }
  assert (Q53 : 2 ^ 53 = 2 * 2 ^ 52) by reflexivity.
  destruct (n * 2 ^ u <? 2 ^ 53 * (d * 2 ^ w)) eqn:Ec; [exists u, w | exists u, (w + 1)].
  - split; [reflexivity|]. set (x := n * 2 ^ u) in *. set (y := d * 2 ^ w) in *.
    set (z := 2 ^ (b + w)) in *. set (k := 2 ^ 52) in *. split; [nia|]. split; [lia|].
    intros L Ed. exists x. unfold y, x.
    assert (w = 0) as ->. { unfold w, scale_down. fold a b. subst d. unfold b. cbn [N.log2]. 
      assert (a < 53) by (apply N.log2_lt_pow2; lia). lia. }
    subst d. cbn [N.pow]. lia.
  - assert (Ew : 2 ^ (w + 1) = 2 * 2 ^ w) by (rewrite N.add_1_r, N.pow_succ_r'; reflexivity).
    split; [|split; [|split]].
    + rewrite Ew. replace (d * (2 * 2 ^ w)) with (2 * (d * 2 ^ w)) by lia. reflexivity.
    + rewrite Ew. lia.
    + rewrite Ew. set (x := n * 2 ^ u) in *. set (y := d * 2 ^ w) in *. set (z := 2 ^ (b + w)) in *.
      set (k := 2 ^ 52) in *. nia.
    + intros L Ed. subst d. rewrite Ew.
      assert (Ha : a < 53) by (apply N.log2_lt_pow2; lia).
      assert (Hb : b = 0) by reflexivity.
      assert (w = 0) as ->. { unfold w, scale_down. fold a b. lia. }
      exists (n * 2 ^ (u - 1)). change (2 ^ 0) with 1. rewrite <- N.mul_assoc.
      replace (2 ^ u) with (2 ^ (u - 1) * 2); [lia|].
      rewrite N.mul_comm, <- N.pow_succ_r'. f_equal. lia.
Qed.

Lemma rnd_err n d : 0 < d -> exists a b, rnd (n, d) = (a, b) /\ 0 < b
  /\ 2 ^ 53 * (a * d) <= 2 ^ 53 * (n * b) + n * b /\ 2 ^ 53 * (n * b) <= 2 ^ 53 * (a * d) + n * b.
Proof.
  intros Hd. destruct (N.eq_dec n 0) as [->|Hn].
  - exists 0, 1. cbn [rnd N.eqb]. repeat split; lia.
  - destruct (rnd_shape n d ltac:(lia) Hd) as (up & down & E & H1 & H2 & _). rewrite E. eexists. eexists.
    split; [reflexivity|]. split; [apply N.neq_0_lt_0, N.pow_nonzero; lia|].
    set (den := d * 2 ^ down) in *. set (num := n * 2 ^ up) in *.
    assert (Hden : 0 < den). { unfold den. apply N.mul_pos_pos; [lia|]. apply N.neq_0_lt_0, N.pow_nonzero; lia. }
    destruct (near_even_err num den Hden) as [A B].
    replace (near_even num den * 2 ^ down * d) with (near_even num den * den) by (unfold den; lia).
    set (q := near_even num den * den) in *. set (k := 2 ^ 52) in *.
    replace (2 ^ 53) with (2 * k) by reflexivity. split; nia.
Qed.
Lemma rnd_exact n : n < 2 ^ 53 -> exists a b, rnd (n, 1) = (a, b) /\ 0 < b /\ a = n * b.
Proof.
  intros L. destruct (N.eq_dec n 0) as [->|Hn].
  - exists 0, 1. split; [reflexivity|split; [lia|reflexivity]].
  - destruct (rnd_shape n 1 ltac:(lia) ltac:(lia)) as (up & down & E & _ & _ & H). rewrite E. eexists. eexists.
    split; [reflexivity|]. split; [apply N.neq_0_lt_0, N.pow_nonzero; lia|].
    destruct (H L eq_refl) as (q & Eq). rewrite Eq, near_even_exact.
    + lia.
    + rewrite N.mul_1_l. apply N.neq_0_lt_0, N.pow_nonzero; lia.
Qed.
