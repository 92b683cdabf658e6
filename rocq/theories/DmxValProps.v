(** C39: DMX values with their number of bytes. *)
From Coq Require Import List NArith ZArith String Lia Bool QArith Lqa.
From Coq Require Import ZifyN ZifyNat ZifyBool.
From Verif Require Import Bytes BytesProofs Txt UtfSpec UtfModel UtfProofs StringModel StringSpec StringProofs StringProps
  UuidModel UuidProps NumModel NumProofs ConvModel ConvProps ConvProps2 ConvProps3.
Import ListNotations.
Open Scope N_scope.
Open Scope list_scope.
Ltac Zify.zify_post_hook ::= Z.div_mod_to_equations.

(** ** Rounded numbers as rationals *)
Definition qn (n : N) : Q := inject_Z (Z.of_N n).
Definition eps : Q := 1 # 9007199254740992.
Lemma qn_pos n : 0 < n -> (0 < qn n)%Q.
Proof. intros H. unfold qn, Qlt, inject_Z. cbn [Qnum Qden]. lia. Qed.
Lemma qn_nonneg n : (0 <= qn n)%Q.
Proof. unfold qn, Qle, inject_Z. cbn [Qnum Qden]. lia. Qed.
Lemma qn_mul a b : (qn (a * b) == qn a * qn b)%Q.
Proof. unfold qn. rewrite N2Z.inj_mul, inject_Z_mult. reflexivity. Qed.
Lemma qn_add a b : (qn (a + b) == qn a + qn b)%Q.
Proof. unfold qn. rewrite N2Z.inj_add, inject_Z_plus. reflexivity. Qed.
Lemma qn_le a b : a <= b -> (qn a <= qn b)%Q.
Proof. intros H. unfold qn. rewrite <- Zle_Qle. lia. Qed.
Lemma q_of_nonneg x : (0 <= q_of x)%Q.
Proof.
  unfold q_of. destruct x as [a b]. cbn [fst snd]. fold (qn a) (qn b).
  destruct (N.eq_dec b 0) as [->|H].
  - unfold qn at 2. cbn. unfold Qdiv, Qinv. cbn. rewrite Qmult_0_r. apply Qle_refl.
  - apply Qle_shift_div_l; [apply qn_pos; lia|]. rewrite Qmult_0_l. apply qn_nonneg.
Qed.
Lemma rnd_q x : 0 < snd x -> 0 < snd (rnd x) /\ (q_of (rnd x) <= q_of x + eps * q_of x)%Q /\ (q_of x <= q_of (rnd x) + eps * q_of x)%Q.
Proof.
  destruct x as [n d]. cbn [snd]. intros Hd. destruct (rnd_err n d Hd) as (a & b & E & Hb & H1 & H2). rewrite E. cbn [snd].
  split; [exact Hb|]. apply qn_le in H1, H2. rewrite !qn_add, !qn_mul in H1, H2.
  unfold q_of. cbn [fst snd]. fold (qn a) (qn b) (qn n) (qn d).
  pose proof (qn_pos b Hb) as Pb. pose proof (qn_pos d Hd) as Pd.
  assert (E53 : (qn (2 ^ 53) == 9007199254740992 # 1)%Q) by reflexivity. rewrite E53 in H1, H2.
  set (x := (qn a / qn b)%Q). set (y := (qn n / qn d)%Q).
  assert (Ea : (qn a == x * qn b)%Q) by (unfold x; field; lra). assert (En : (qn n == y * qn d)%Q) by (unfold y; field; lra).
  rewrite Ea, En in H1, H2. unfold eps.
  assert (P : (0 < qn b * qn d)%Q) by (apply Qmult_lt_0_compat; assumption).
  split; apply (Qmult_le_r _ _ (qn b * qn d) P); lra.
Qed.
Lemma q_of_N n : n < 2 ^ 53 -> 0 < snd (d_of_N n) /\ (q_of (d_of_N n) == qn n)%Q.
Proof.
  intros H. unfold d_of_N. destruct (rnd_exact n H) as (a & b & E & Hb & Ea). rewrite E. cbn [snd]. split; [exact Hb|].
  unfold q_of. cbn [fst snd]. fold (qn a) (qn b). rewrite Ea, qn_mul. pose proof (qn_pos b Hb). field. lra.
Qed.
Lemma d_to_u64_exact n : n < 2 ^ 53 -> to_u64 (d_of_N n) = Ok n.
Proof.
  intros H. unfold to_u64, d_to_u64, d_of_N. destruct (rnd_exact n H) as (a & b & E & Hb & Ea). rewrite E. cbn [fst snd].
  rewrite Ea, N.div_mul by lia. change (2 ^ 53) with 9007199254740992 in H. unfold two64. replace (n <? _) with true by lia. reflexivity.
Qed.
Lemma q_div x y : 0 < snd x -> 0 < snd y -> 0 < fst y -> (q_of (fst x * snd y, snd x * fst y)%N == q_of x / q_of y)%Q.
Proof.
  destruct x as [a b], y as [c d]. cbn [fst snd]. intros Hb Hd Hc. unfold q_of. cbn [fst snd].
  fold (qn (a * d)) (qn (b * c)) (qn a) (qn b) (qn c) (qn d). rewrite !qn_mul.
  pose proof (qn_pos b Hb). pose proof (qn_pos c Hc). pose proof (qn_pos d Hd). field. repeat split; lra.
Qed.
Lemma q_mul x y : 0 < snd x -> 0 < snd y -> (q_of (fst x * fst y, snd x * snd y)%N == q_of x * q_of y)%Q.
Proof.
  destruct x as [a b], y as [c d]. cbn [fst snd]. intros Hb Hd. unfold q_of. cbn [fst snd].
  fold (qn (a * c)) (qn (b * d)) (qn a) (qn b) (qn c) (qn d). rewrite !qn_mul.
  pose proof (qn_pos b Hb). pose proof (qn_pos d Hd). field. repeat split; lra.
Qed.
Lemma q_add x y : 0 < snd x -> 0 < snd y -> (q_of (fst x * snd y + fst y * snd x, snd x * snd y)%N == q_of x + q_of y)%Q.
Proof.
  destruct x as [a b], y as [c d]. cbn [fst snd]. intros Hb Hd. unfold q_of. cbn [fst snd].
  fold (qn (a * d + c * b)) (qn (b * d)) (qn a) (qn b) (qn c) (qn d). rewrite qn_add, !qn_mul.
  pose proof (qn_pos b Hb). pose proof (qn_pos d Hd). field. repeat split; lra.
Qed.
Lemma q_floor x : 0 < snd x -> (qn (fst x / snd x) <= q_of x)%Q /\ (q_of x < qn (fst x / snd x) + 1)%Q.
Proof.
  destruct x as [a b]. cbn [fst snd]. intros Hb. unfold q_of. cbn [fst snd]. fold (qn a) (qn b).
  pose proof (qn_pos b Hb) as P. pose proof (N.div_mod a b ltac:(lia)) as E. pose proof (N.mod_lt a b ltac:(lia)) as M.
  set (q := a / b) in *. set (r := a mod b) in *. clearbody q r. split.
  - apply Qle_shift_div_l; [exact P|]. rewrite <- qn_mul. apply qn_le. lia.
  - apply Qlt_shift_div_r; [exact P|]. change 1%Q with (qn 1). rewrite <- qn_add, <- qn_mul. unfold qn. rewrite <- Zlt_Qlt. lia.
Qed.

(** ** The scaling of one value *)
Definition mirror (v A B : N) : res N :=
  to_u64 (d_add (d_mul (d_div (d_of_N v) (d_of_N A)) (d_of_N B)) (1, 2)).
Lemma mirror_bound v A B : v < 2 ^ 53 -> 0 < A -> A < 2 ^ 53 -> B < 2 ^ 53 -> exists s x : Q, exists k,
  (x == qn v / qn A)%Q
  /\ (exists p r, p <= x + eps * x /\ x <= p + eps * x /\ r <= p * qn B + eps * (p * qn B) /\ p * qn B <= r + eps * (p * qn B)
      /\ s <= (r + (1#2)) + eps * (r + (1#2)) /\ r + (1#2) <= s + eps * (r + (1#2)) /\ 0 <= p /\ 0 <= r)%Q
  /\ (qn k <= s)%Q /\ (s < qn k + 1)%Q /\ mirror v A B = if k <? two64 then Ok k else UB.
Proof.
  intros Hv HA HA' HB.
  destruct (q_of_N v Hv) as [Sv Ev]. destruct (q_of_N A HA') as [SA EA]. destruct (q_of_N B HB) as [SB EB].
  assert (FA : 0 < fst (d_of_N A)).
  { unfold d_of_N. destruct (rnd_exact A HA') as (a & b & E & Hb & Ea). rewrite E. cbn [fst]. rewrite Ea. lia. }
  set (dv := d_of_N v) in *. set (dA := d_of_N A) in *. set (dB := d_of_N B) in *.
  assert (P1 : 0 < snd (fst dv * snd dA, snd dv * fst dA)) by (cbn [snd]; lia).
  destruct (rnd_q _ P1) as (S1 & U1 & L1). rewrite (q_div dv dA Sv SA FA) in U1, L1. fold (d_div dv dA) in *.
  set (p := d_div dv dA) in *.
  assert (P2 : 0 < snd (fst p * fst dB, snd p * snd dB)) by (cbn [snd]; lia).
  destruct (rnd_q _ P2) as (S2 & U2 & L2). rewrite (q_mul p dB S1 SB) in U2, L2. fold (d_mul p dB) in *.
  set (r := d_mul p dB) in *.
  set (half := (1, 2) : N * N).
  assert (P3 : 0 < snd (fst r * snd half + fst half * snd r, snd r * snd half)) by (unfold half; cbn [fst snd]; lia).
  assert (S12 : 0 < snd half) by (unfold half; cbn [snd]; lia).
  destruct (rnd_q _ P3) as (S3 & U3 & L3). rewrite (q_add r half S2 S12) in U3, L3. fold (d_add r half) in *.
  assert (E12 : (q_of half == 1 # 2)%Q) by reflexivity. rewrite E12 in U3, L3.
  rewrite Ev, EA in U1, L1. rewrite EB in U2, L2.
  exists (q_of (d_add r half)), (qn v / qn A)%Q, (fst (d_add r half) / snd (d_add r half)).
  split; [reflexivity|]. split.
  - exists (q_of p), (q_of r). pose proof (q_of_nonneg p). pose proof (q_of_nonneg r).
    split; [exact U1|]. split; [exact L1|]. split; [exact U2|]. split; [exact L2|]. split; [exact U3|]. split; [exact L3|].
    split; assumption.
  - destruct (q_floor _ S3) as [F1 F2]. split; [exact F1|]. split; [exact F2|].
    unfold mirror. fold dv dA dB p r half. unfold to_u64, d_to_u64. cbv zeta. destruct (_ <? two64); reflexivity.
Qed.
Lemma bridge (a b c x y : Z) : ((a # 1) * inject_Z x < (b # 1) * inject_Z y + (c # 1))%Q -> (a * x < b * y + c)%Z.
Proof. unfold Qlt, Qplus, Qmult, inject_Z. cbn [Qnum Qden]. lia. Qed.
Lemma bridge' (a b c x y : Z) : ((b # 1) * inject_Z y + (c # 1) < (a # 1) * inject_Z x)%Q -> (b * y + c < a * x)%Z.
Proof. unfold Qlt, Qplus, Qmult, inject_Z. cbn [Qnum Qden]. lia. Qed.

(** Nearest value: [k] is the integer closest to v*B/A. *)
Definition nearest (v A B k : N) : Prop := 2 * (k * A) < 2 * (v * B) + A /\ 2 * (v * B) < 2 * (k * A) + A.
Ltac pair_ok v A B A' B' A1 :=
  let Hv := fresh in let E := fresh in let K1 := fresh in let K2 := fresh in
  intros Hv; destruct (mirror_bound v A B) as (s & x & k & Ex & (p & r & U1 & L1 & U2 & L2 & U3 & L3 & Pp & Pr) & F1 & F2 & E);
    [change (2 ^ 53) with 9007199254740992; lia|lia|reflexivity|reflexivity|];
  exists k;
  assert (Ex' : (x == A1 * inject_Z (Z.of_N v))%Q) by (rewrite Ex; unfold Qdiv; rewrite Qmult_comm; reflexivity);
  assert (X1 : (x <= 1)%Q) by (rewrite Ex'; pose proof (qn_le v A Hv) as Q1; change (qn A) with (Z.of_N A # 1) in Q1; unfold qn in Q1; cbn [Z.of_N] in Q1; lra);
  change (qn B) with (Z.of_N B # 1) in *; unfold qn, eps in *; cbn [Z.of_N] in *;
  assert (X0 : (0 <= inject_Z (Z.of_N v))%Q) by (apply (qn_nonneg v));
  assert (K1 : (Z.of_N (2 * A') * Z.of_N k < Z.of_N (2 * B') * Z.of_N v + Z.of_N (A' + 1))%Z) by (apply bridge; cbn [Z.of_N N.mul N.add Pos.mul Pos.add Pos.succ]; lra);
  assert (K2 : (Z.of_N (2 * B') * Z.of_N v + Z.of_N (A' - 1) < Z.of_N (2 * A') * (Z.of_N k + 1))%Z)
    by (apply bridge'; rewrite inject_Z_plus; change (inject_Z 1) with 1%Q; let c := eval vm_compute in (A' - 1) in change (A' - 1) with c;
        cbn [Z.of_N N.mul N.add Pos.mul Pos.add Pos.succ]; lra);
  assert (N1 : nearest v A B k) by (unfold nearest; clear - K1 K2; lia);
  split; [|exact N1]; rewrite E; unfold nearest, two64 in *; clear - N1 Hv;
  replace (k <? _) with true by lia; reflexivity.
Lemma mirror_12 v : v <= 255 -> exists k, mirror v 255 65535 = Ok k /\ nearest v 255 65535 k.
Proof. pair_ok v 255 65535 1 257 (1 # 255)%Q. Qed.
Lemma mirror_13 v : v <= 255 -> exists k, mirror v 255 16777215 = Ok k /\ nearest v 255 16777215 k.
Proof. pair_ok v 255 16777215 1 65793 (1 # 255)%Q. Qed.
Lemma mirror_14 v : v <= 255 -> exists k, mirror v 255 4294967295 = Ok k /\ nearest v 255 4294967295 k.
Proof. pair_ok v 255 4294967295 1 16843009 (1 # 255)%Q. Qed.
Lemma mirror_21 v : v <= 65535 -> exists k, mirror v 65535 255 = Ok k /\ nearest v 65535 255 k.
Proof. pair_ok v 65535 255 257 1 (1 # 65535)%Q. Qed.
Lemma mirror_23 v : v <= 65535 -> exists k, mirror v 65535 16777215 = Ok k /\ nearest v 65535 16777215 k.
Proof. pair_ok v 65535 16777215 257 65793 (1 # 65535)%Q. Qed.
Lemma mirror_24 v : v <= 65535 -> exists k, mirror v 65535 4294967295 = Ok k /\ nearest v 65535 4294967295 k.
Proof. pair_ok v 65535 4294967295 1 65537 (1 # 65535)%Q. Qed.
Lemma mirror_31 v : v <= 16777215 -> exists k, mirror v 16777215 255 = Ok k /\ nearest v 16777215 255 k.
Proof. pair_ok v 16777215 255 65793 1 (1 # 16777215)%Q. Qed.
Lemma mirror_32 v : v <= 16777215 -> exists k, mirror v 16777215 65535 = Ok k /\ nearest v 16777215 65535 k.
Proof. pair_ok v 16777215 65535 65793 257 (1 # 16777215)%Q. Qed.
Lemma mirror_34 v : v <= 16777215 -> exists k, mirror v 16777215 4294967295 = Ok k /\ nearest v 16777215 4294967295 k.
Proof. pair_ok v 16777215 4294967295 65793 16843009 (1 # 16777215)%Q. Qed.
Lemma mirror_41 v : v <= 4294967295 -> exists k, mirror v 4294967295 255 = Ok k /\ nearest v 4294967295 255 k.
Proof. pair_ok v 4294967295 255 16843009 1 (1 # 4294967295)%Q. Qed.
Lemma mirror_42 v : v <= 4294967295 -> exists k, mirror v 4294967295 65535 = Ok k /\ nearest v 4294967295 65535 k.
Proof. pair_ok v 4294967295 65535 65537 1 (1 # 4294967295)%Q. Qed.
Lemma mirror_43 v : v <= 4294967295 -> exists k, mirror v 4294967295 16777215 = Ok k /\ nearest v 4294967295 16777215 k.
Proof. pair_ok v 4294967295 16777215 16843009 65793 (1 # 4294967295)%Q. Qed.

(** ** The text *)
(** Value and number of bytes, with an "s" for shifting. *)
Definition dmx_text (v n : N) (s : bool) : list N := dec v ++ T"/" ++ dec n ++ (if s then T"s" else []).
Definition bytes_1_4 (n : N) : Prop := 1 <= n /\ n <= 4.
Definition top (n : N) : N := 256 ^ n - 1.
Lemma bytes_cases n : bytes_1_4 n -> n = 1 \/ n = 2 \/ n = 3 \/ n = 4.
Proof. unfold bytes_1_4. lia. Qed.
Lemma max_dmx_top n : bytes_1_4 n -> max_dmx n = top n.
Proof. intros H. destruct (bytes_cases n H) as [-> |[-> |[-> | ->]]]; reflexivity. Qed.
Lemma write_dmx_text v n : v < 2 ^ 53 -> bytes_1_4 n -> write_dmx v n false = dmx_text v n false.
Proof.
  intros Hv Hn. change (2 ^ 53) with 9007199254740992 in Hv. unfold bytes_1_4 in Hn.
  unfold write_dmx, dmx_text. rewrite !itoa_N by lia. rewrite app_nil_r. reflexivity.
Qed.
Lemma read_dmx_text old v n (s : bool) reso : v < 2 ^ 53 -> bytes_1_4 n -> bytes_1_4 reso ->
  read_dmx old (dmx_text v n s) reso =
  do w <- if n =? reso then Ok v
          else if s then Ok (if n <? reso then v * 256 ^ (reso - n) mod two64 else v / 256 ^ (n - reso))
          else do k <- mirror v (top n) (top reso); Ok (if top reso <? k then top reso else k);
  if top reso <? w then Ok (mkRd w false 1) else Ok (mkRd w true 0).
Proof.
  intros Hv Hn Hr. unfold read_dmx.
  destruct (dec_spec v) as (Fv & Nv & _). destruct (dec_spec n) as (Fn & Nn & _).
  assert (E : is_empty (dmx_text v n s) = false) by (unfold dmx_text; destruct (dec v); [congruence|reflexivity]).
  rewrite E. clear E. change (T"/") with [47].
  assert (Ef : tx_find (dmx_text v n s) [47] 0 false = Some (nlen (dec v))).
  { unfold dmx_text. apply (find_str_ch (dec v) 47). apply digits_notin; [unfold digit; lia|exact Fv]. }
  rewrite Ef. clear Ef.
  assert (Es : split_at (dmx_text v n s) (nlen (dec v)) = (dec v, dec n ++ (if s then T"s" else []))).
  { unfold split_at, dmx_text. rewrite nlen_to_nat. rewrite firstn_app, firstn_all, Nat.sub_diag, firstn_O, app_nil_r.
    replace (N.to_nat (nlen (dec v) + 1)) with (List.length (dec v ++ T"/")) by (rewrite app_length; cbn; unfold nlen; lia).
    rewrite app_assoc, skipn_app, skipn_all, Nat.sub_diag. reflexivity. }
  rewrite Es. clear Es.
  assert (El : last (dec n ++ (if s then T"s" else [])) 0 =? 115 = s).
  { destruct s.
    - change (T"s") with [115]. rewrite last_last. reflexivity.
    - rewrite app_nil_r. destruct (exists_last Nn) as (l & c & Ec). rewrite Ec, last_last.
      rewrite Ec in Fn. apply Forall_app in Fn as [_ Fn]. apply Forall_inv in Fn. unfold digit in Fn. lia. }
  rewrite El. clear El.
  assert (Et : (if s then truncate (dec n ++ (if s then T"s" else [])) (nlen (dec n ++ (if s then T"s" else [])) - 1)
                else dec n ++ (if s then T"s" else [])) = dec n).
  { destruct s; [|apply app_nil_r]. unfold truncate. change (T"s") with [115]. rewrite nlen_app. change (nlen [115]) with 1.
    replace (_ <? _) with true by lia. rewrite N.add_sub, nlen_to_nat, firstn_app, firstn_all, Nat.sub_diag, firstn_O, app_nil_r.
    unfold trim_right_invalid. destruct (exists_last Nn) as (l & c & Ec). rewrite Ec in *. rewrite last_last.
    apply Forall_app in Fn as [_ Fn]. apply Forall_inv in Fn. unfold digit in Fn.
    replace ((55296 <=? c) && (c <=? 56319)) with false by lia. destruct (l ++ [c]); reflexivity. }
  rewrite Et. clear Et.
  assert (Av : to_bytes (dec v) = Some (dec v)).
  { apply to_bytes_ascii. eapply Forall_impl; [|exact Fv]. unfold digit. cbv beta. lia. }
  rewrite Av. clear Av. unfold bytes_1_4 in Hn, Hr. rewrite dec_atoi by lia. cbn [bind].
  rewrite !complete_ok by assumption. cbn [bind]. rewrite dec_val. rewrite d_to_u64_exact by exact Hv. cbn [bind].
  rewrite (max_dmx_top reso Hr). replace (Z.of_N n =? Z.of_N reso)%Z with (n =? reso) by lia.
  destruct (n =? reso) eqn:Enr; [reflexivity|]. destruct s.
  - replace (int32_ok (8 * (Z.of_N reso - Z.of_N n))) with true by (unfold int32_ok; lia).
    unfold shift64. replace (64 <=? Z.abs (8 * (Z.of_N reso - Z.of_N n)))%Z with false by lia.
    replace (0 <=? 8 * (Z.of_N reso - Z.of_N n))%Z with (n <? reso) by lia.
    destruct (n <? reso) eqn:Elt.
    + rewrite N.shiftl_mul_pow2. replace (Z.to_N (8 * (Z.of_N reso - Z.of_N n))) with (8 * (reso - n)) by lia.
      rewrite N.pow_mul_r. reflexivity.
    + rewrite N.shiftr_div_pow2. replace (Z.to_N (- (8 * (Z.of_N reso - Z.of_N n)))) with (8 * (n - reso)) by lia.
      rewrite N.pow_mul_r. reflexivity.
  - assert (En : to_unsigned 32 (Z.of_N n) = n) by (apply to_unsigned_small; change (2 ^ 32) with 4294967296; lia).
    rewrite En, (max_dmx_top n Hn). cbv zeta. unfold mirror.
    generalize (to_u64 (d_add (d_mul (d_div (d_of_N v) (d_of_N (top n))) (d_of_N (top reso))) (1, 2))). intros q. reflexivity.
Qed.

(** ** C39 *)
(** Same resolution: a value of the channel is read back unchanged, a larger one is reported. *)
Theorem C39_same_resolution : forall v n old, bytes_1_4 n ->
  (v <= top n -> read_dmx old (write_dmx v n false) n = Ok (mkRd v true 0))
  /\ (top n < v -> v < 2 ^ 53 -> read_dmx old (write_dmx v n false) n = Ok (mkRd v false 1)).
Proof.
  intros v n old Hn.
  assert (T4 : top n <= 4294967295) by (destruct (bytes_cases n Hn) as [-> |[-> |[-> | ->]]]; vm_compute; discriminate).
  split.
  - intros Hv. assert (Hv' : v < 2 ^ 53) by (change (2 ^ 53) with 9007199254740992; lia).
    rewrite write_dmx_text, read_dmx_text by assumption. rewrite N.eqb_refl. cbn [bind]. replace (top n <? v) with false by lia. reflexivity.
  - intros Hv Hv'. rewrite write_dmx_text, read_dmx_text by assumption. rewrite N.eqb_refl. cbn [bind].
    replace (top n <? v) with true by lia. reflexivity.
Qed.
Print Assumptions C39_same_resolution.
(** Another resolution, mirrored: the value of the channel nearest to the same fraction of its range. *)
Theorem C39_mirrored : forall v n m old, bytes_1_4 n -> bytes_1_4 m -> v <= top n -> exists k,
  read_dmx old (dmx_text v n false) m = Ok (mkRd k true 0) /\ nearest v (top n) (top m) k /\ k <= top m.
Proof.
  intros v n m old Hn Hm Hv.
  assert (T4 : top n <= 4294967295) by (destruct (bytes_cases n Hn) as [-> |[-> |[-> | ->]]]; vm_compute; discriminate).
  assert (Hv' : v < 2 ^ 53) by (change (2 ^ 53) with 9007199254740992; lia).
  assert (Hpos : 0 < top n) by (destruct (bytes_cases n Hn) as [-> |[-> |[-> | ->]]]; reflexivity).
  assert (G : forall k, nearest v (top n) (top m) k -> k <= top m).
  { unfold nearest. intros k [K _]. nia. }
  rewrite read_dmx_text by assumption. destruct (n =? m) eqn:E.
  - assert (n = m) by lia. subst m. exists v. cbn [bind]. replace (top n <? v) with false by lia.
    split; [reflexivity|]. split; [unfold nearest; lia|exact Hv].
  - assert (M : exists k, mirror v (top n) (top m) = Ok k /\ nearest v (top n) (top m) k).
    { destruct (bytes_cases n Hn) as [-> |[-> |[-> | ->]]]; destruct (bytes_cases m Hm) as [-> |[-> |[-> | ->]]]; try discriminate E;
        [apply mirror_12|apply mirror_13|apply mirror_14|apply mirror_21|apply mirror_23|apply mirror_24
        |apply mirror_31|apply mirror_32|apply mirror_34|apply mirror_41|apply mirror_42|apply mirror_43]; exact Hv. }
    destruct M as (k & Mk & Nk). exists k. pose proof (G k Nk) as Gk. rewrite Mk. cbn [bind].
    replace (top m <? k) with false by lia. replace (top m <? k) with false by lia. auto.
Qed.
Print Assumptions C39_mirrored.
(** Mirroring up to more bytes and back down gives the value again. *)
Theorem C39_mirror_up_down : forall v n m old old', bytes_1_4 n -> bytes_1_4 m -> n <= m -> v <= top n -> exists k,
  read_dmx old (dmx_text v n false) m = Ok (mkRd k true 0) /\ read_dmx old' (dmx_text k m false) n = Ok (mkRd v true 0).
Proof.
  intros v n m old old' Hn Hm Hle Hv. destruct (C39_mirrored v n m old Hn Hm Hv) as (k & E1 & N1 & K1).
  destruct (C39_mirrored k m n old' Hm Hn K1) as (v' & E2 & N2 & K2). exists k. split; [exact E1|]. rewrite E2.
  assert (v' = v); [|subst; reflexivity]. unfold nearest in *.
  destruct (bytes_cases n Hn) as [-> |[-> |[-> | ->]]]; destruct (bytes_cases m Hm) as [-> |[-> |[-> | ->]]];
    try (exfalso; clear - Hle; lia); unfold top in *; vm_compute (256 ^ _ - 1) in *; clear - N1 N2; lia.
Qed.
Print Assumptions C39_mirror_up_down.
(** Another resolution, shifted: bytes are added or dropped at the low end. *)
Theorem C39_shifted : forall v n m old, bytes_1_4 n -> bytes_1_4 m -> v <= top n ->
  let w := if n <=? m then v * 256 ^ (m - n) else v / 256 ^ (n - m) in
  read_dmx old (dmx_text v n true) m = Ok (mkRd w true 0) /\ w <= top m.
Proof.
  intros v n m old Hn Hm Hv w.
  assert (T4 : top n <= 4294967295) by (destruct (bytes_cases n Hn) as [-> |[-> |[-> | ->]]]; vm_compute; discriminate).
  assert (Hv' : v < 2 ^ 53) by (change (2 ^ 53) with 9007199254740992; lia).
  assert (W : w <= top m /\ w < two64 /\ top m < two64).
  { unfold w, two64. destruct (bytes_cases n Hn) as [-> |[-> |[-> | ->]]]; destruct (bytes_cases m Hm) as [-> |[-> |[-> | ->]]];
      unfold top in *; repeat match goal with |- context[256 ^ ?e] => let x := eval vm_compute in (256 ^ e) in change (256 ^ e) with x end;
      repeat match goal with H : context[256 ^ ?e] |- _ => let x := eval vm_compute in (256 ^ e) in change (256 ^ e) with x in H end;
      cbn [N.leb N.compare Pos.compare Pos.compare_cont]; clear - Hv; lia. }
  destruct W as (W1 & W2 & W3). split; [|exact W1]. rewrite read_dmx_text by assumption.
  assert (E : (if n =? m then Ok v else Ok (if n <? m then v * 256 ^ (m - n) mod two64 else v / 256 ^ (n - m))) = Ok w).
  { unfold w in *. destruct (n =? m) eqn:E1.
    - assert (n = m) by lia. subst m. replace (n <=? n) with true by lia. rewrite N.sub_diag, N.pow_0_r, N.mul_1_r. reflexivity.
    - replace (n <=? m) with (n <? m) in * by lia. destruct (n <? m); [|reflexivity]. rewrite N.mod_small by exact W2. reflexivity. }
  rewrite E. cbn [bind]. replace (top m <? w) with false by lia. reflexivity.
Qed.
Print Assumptions C39_shifted.
(** Whatever the text: a value that is accepted is in the range of the channel. *)
Theorem C39_accepted_in_range : forall s n old r, bytes_1_4 n -> read_dmx old s n = Ok r -> rd_ok r = true -> rd_val r <= top n.
Proof.
  intros s n old r Hn. unfold read_dmx. rewrite max_dmx_top by exact Hn.
  assert (B : forall A B (x : res A) (f : A -> res B) y, bind x f = Ok y -> exists a, x = Ok a /\ f a = Ok y).
  { intros A B0 x f y. destruct x; cbn [bind]; try discriminate. intros H. eexists. split; [reflexivity|exact H]. }
  destruct (is_empty s). { intros [= <-] _. cbn [rd_val]. lia. }
  destruct (tx_find s T"/" 0 false) as [p|]; [|intros [= <-]; discriminate].
  destruct (split_at s p) as [a b]. destruct (to_bytes a); [|discriminate].
  intros H. apply B in H as (z & _ & H). apply B in H as (c & _ & H).
  destruct (if c then _ else _) as [[raw bs] errs]. apply B in H as (v & _ & H). apply B in H as (w & _ & H).
  destruct (top n <? w) eqn:E; inversion H; subst; cbn [rd_ok rd_val]; [discriminate|]. intros _. lia.
Qed.
Print Assumptions C39_accepted_in_range.
(** A text that is read without an error is empty or a number, a slash and a number, with or without a final s. *)
Lemma all_digits_true : forall s, all_digits s = Ok true -> Forall digit s.
Proof.
  induction s as [|c s IH]; [constructor|]. cbn [all_digits]. destruct (255 <? c); [discriminate|].
  unfold is_digit. destruct ((48 <=? c) && (c <=? 57)) eqn:E; [|discriminate]. intros H. constructor; [unfold digit; lia|now apply IH].
Qed.
Lemma complete_true s : is_complete_number s = Ok true -> Forall digit s /\ s <> [].
Proof.
  unfold is_complete_number. destruct (all_digits s) as [b| | |] eqn:E; try discriminate. cbn [bind]. destruct s; [discriminate|].
  intros H. split; [|discriminate]. apply all_digits_true. congruence.
Qed.
Theorem C39_accepted_shape : forall s n old r, Forall (fun c => c < 128) s -> read_dmx old s n = Ok r -> rd_errs r = 0 ->
  s = [] \/ exists a b, s = a ++ T"/" ++ b /\ Forall digit a /\ a <> [] /\
    (Forall digit b /\ b <> [] \/ exists b', b = b' ++ T"s" /\ Forall digit b' /\ b' <> []).
Proof.
  intros s n old r As H Er. destruct s as [|c0 s0] eqn:Es; [now left|]. rewrite <- Es in *. right. unfold read_dmx in H.
  replace (is_empty s) with false in H by now rewrite Es. change (T"/") with [47] in *.
  pose proof (find_occ false s [47] 0) as F. cbv iota in F. change (tx_find s [47] 0 false) with (ustr_find s [47] 0) in H.
  destruct (ustr_find s [47] 0) as [p|]; [|injection H as <-; discriminate Er].
  destruct F as (_ & (a & m & b & E & La & Em) & _). change (fold false) with (fun c : N => c) in Em. rewrite map_id in Em. cbn in Em. subst m. clear Es c0 s0.
  assert (Sp : split_at s p = (a, b)).
  { unfold split_at. subst p s. f_equal.
    - rewrite nlen_to_nat, firstn_app, firstn_all, Nat.sub_diag, firstn_O, app_nil_r. reflexivity.
    - replace (N.to_nat (nlen a + 1)) with (List.length (a ++ [47])) by (rewrite app_length; cbn; unfold nlen; lia).
      rewrite app_assoc, skipn_app, skipn_all, Nat.sub_diag. reflexivity. }
  rewrite Sp in H. destruct (to_bytes a) as [fb|]; [|discriminate].
  set (bs := last b 0 =? 115) in *. set (b' := if bs then truncate b (nlen b - 1) else b) in *.
  destruct (atoi b') as [sp| | |]; try discriminate. cbn [bind] in H.
  destruct (do x <- is_complete_number a; if x then is_complete_number b' else Ok false) as [cp| | |] eqn:Ec; try discriminate. cbn [bind] in H.
  destruct cp.
  - destruct (is_complete_number a) as [[|]| | |] eqn:Ea; try discriminate. cbn [bind] in Ec. apply complete_true in Ea as [Da Na]. apply complete_true in Ec as [Db Nb].
    exists a, b. split; [exact E|]. split; [exact Da|]. split; [exact Na|]. unfold b' in *. destruct bs eqn:Eb; [|now left]. right.
    unfold bs in Eb. destruct b as [|x b0] eqn:Ex; [discriminate|]. rewrite <- Ex in *. assert (b <> []) by (rewrite Ex; discriminate). destruct (exists_last H0) as (q & y & Ey).
    rewrite Ey, last_last in Eb. assert (y = 115) by lia. subst y. exists q. split; [exact Ey|].
    assert (Q : truncate b (nlen b - 1) = q).
    { unfold truncate. rewrite Ey, nlen_app. change (nlen [115]) with 1. replace (_ <? _) with true by lia. rewrite N.add_sub, nlen_to_nat, firstn_app, firstn_all, Nat.sub_diag, firstn_O, app_nil_r.
      unfold trim_right_invalid. destruct q as [|y0 q0] eqn:Eq; [reflexivity|]. rewrite <- Eq in *. assert (q <> []) by (rewrite Eq; discriminate). destruct (exists_last H1) as (u & z & Ez).
      assert (z < 128). { rewrite Forall_forall in As. apply As. rewrite E, Ey, Ez. rewrite !in_app_iff. right. right. left. right. now left. }
      rewrite Ez, last_last. replace ((55296 <=? z) && (z <=? 56319)) with false by lia. destruct (u ++ [z]); reflexivity. }
    rewrite Q in *. now split.
  - exfalso. destruct (to_u64 (0, 1)) as [v| | |]; try discriminate. cbn [bind] in H.
    match type of H with bind ?e _ = _ => destruct e as [w| | |]; try discriminate end. cbn [bind] in H.
    destruct (max_dmx n <? w); injection H as <-; cbn [rd_errs] in Er; lia.
Qed.
Print Assumptions C39_accepted_shape.
Example C39_accepted_shape_case : read_dmx 7 (T"300/2s") 1 = Ok (mkRd 1 true 0).
Proof. vm_compute. reflexivity. Qed.
Theorem C39_none : forall v n old, bytes_1_4 n ->
  read_dmx_none old (write_dmx v n true) n = Ok (true, mkRd old true 0)
  /\ (v <= top n -> read_dmx_none old (write_dmx v n false) n = Ok (false, mkRd v true 0)).
Proof.
  intros v n old Hn. split; [reflexivity|]. intros Hv. unfold read_dmx_none.
  destruct (C39_same_resolution v n old Hn) as [H _]. rewrite H by exact Hv. cbn [bind rd_val rd_errs].
  destruct (txeq (write_dmx v n false) T"None") eqn:E; [|reflexivity]. exfalso. apply txeq_iff in E.
  assert (Hv' : v < 2 ^ 53).
  { change (2 ^ 53) with 9007199254740992. destruct (bytes_cases n Hn) as [-> |[-> |[-> | ->]]]; unfold top in Hv; vm_compute (256 ^ _ - 1) in Hv; lia. }
  rewrite write_dmx_text in E by assumption. unfold dmx_text in E. destruct (dec_spec v) as (F & Nn & _).
  destruct (dec v) as [|c r]; [congruence|]. apply Forall_inv in F. unfold digit in F.
  apply (f_equal (fun l => nth 0 l 0)) in E.
  change (nth 0 (make_upper T"None") 0) with 78 in E. cbn [app make_upper map nth] in E.
  unfold to_upper in E. destruct (_ && _) eqn:?; lia.
Qed.
Print Assumptions C39_none.
Example C39_case : write_dmx 200 1 false = T"200/1" /\ read_dmx 7 T"200/1" 2 = Ok (mkRd 51400 true 0)
  /\ read_dmx 7 T"200/1s" 2 = Ok (mkRd 51200 true 0) /\ read_dmx 7 T"51400/2" 1 = Ok (mkRd 200 true 0)
  /\ bytes_1_4 2 /\ 51400 <= top 2 /\ nearest 200 (top 1) (top 2) 51400.
Proof. vm_compute. repeat split; try reflexivity; discriminate. Qed.
(** A value above the range of its own resolution is accepted when mirrored (clamped), and the overload
    with "None" reports success for every text, even when it stores a value outside the range. *)
Theorem C39_overflow_refuted : exists s, s = T"300/1" /\ read_dmx 0 s 2 = Ok (mkRd 65535 true 0)
  /\ read_dmx 0 s 1 = Ok (mkRd 300 false 1) /\ read_dmx_none 0 s 1 = Ok (false, mkRd 300 true 1).
Proof. eexists. split; [reflexivity|]. vm_compute. repeat split; reflexivity. Qed.
Print Assumptions C39_overflow_refuted.
(** Text that is no number is an error, yet reported as success with the value 0. *)
Theorem C39_garbage_refuted : exists s, s = T"x/y" /\ read_dmx 9 s 2 = Ok (mkRd 0 true 1).
Proof. eexists. split; [reflexivity|]. vm_compute. reflexivity. Qed.
Print Assumptions C39_garbage_refuted.
(** Undefined behaviour on file content: a value from 2^64 on, or a shift by 64 bits or more. *)
Theorem C39_undefined_refuted : exists s t, s = T"18446744073709551616/1" /\ t = T"1/9s" /\ read_dmx 0 s 1 = UB /\ read_dmx 0 t 1 = UB.
Proof. do 2 eexists. split; [reflexivity|]. split; [reflexivity|]. vm_compute. split; reflexivity. Qed.
Print Assumptions C39_undefined_refuted.
