(** C40, C42-C44, C67: integers, dates, hexadecimal values, identifiers and addresses as attributes. *)
From Coq Require Import List NArith ZArith String Lia Bool.
From Coq Require Import ZifyN ZifyNat ZifyBool.
From Verif Require Import Bytes BytesProofs Txt UtfSpec UtfModel UtfProofs StringModel StringSpec StringProofs StringProps
  UuidModel UuidProps NumModel NumProofs ConvModel ConvProps.
Import ListNotations.
Open Scope N_scope.
Open Scope list_scope.
Ltac Zify.zify_post_hook ::= Z.div_mod_to_equations.

Lemma int_text_nonempty z : is_empty (int_text z) = false.
Proof. destruct (int_text_chars z) as [_ H]. destruct (int_text z); [congruence|reflexivity]. Qed.
Lemma read_int_text {A} (cast : Z -> A) old z : sint32 z -> read_int cast old (int_text z) = Ok (mkRd (cast z) true 0).
Proof. intros H. unfold read_int. rewrite int_text_nonempty, atoi_int_text by exact H. reflexivity. Qed.

(** ** C67: integer attributes *)
Theorem C67_int_roundtrip :
  (forall v old, sint32 v -> read_int as_sint32 old (write_int v) = Ok (mkRd v true 0))
  /\ (forall v old, (-128 <= v <= 127)%Z -> read_int as_sint8 old (write_int v) = Ok (mkRd v true 0))
  /\ (forall v old, v < 256 -> read_int as_uint8 old (write_int (Z.of_N v)) = Ok (mkRd v true 0))
  /\ (forall v old, v < 2147483648 -> read_int as_uint32 old (write_int (Z.of_N v)) = Ok (mkRd v true 0))
  /\ (forall v old, v < 2147483648 -> read_int as_size_t old (write_size v) = Ok (mkRd v true 0)).
Proof.
  split; [|split; [|split; [|split]]]; intros v old Hv; unfold write_int.
  - rewrite read_int_text by exact Hv. reflexivity.
  - rewrite read_int_text by (unfold sint32; lia). unfold as_sint8. rewrite to_signed_small; [reflexivity|lia|].
    change (2 ^ (Z.of_N 8 - 1))%Z with 128%Z. lia.
  - rewrite read_int_text by (unfold sint32; lia). unfold as_uint8. rewrite to_unsigned_small; [reflexivity|exact Hv].
  - rewrite read_int_text by (unfold sint32; lia). unfold as_uint32. rewrite to_unsigned_small; [reflexivity|].
    change (2 ^ 32) with 4294967296. lia.
  - unfold write_size. rewrite itoa_small by lia. rewrite read_int_text by (unfold sint32; lia).
    unfold as_size_t. rewrite to_unsigned_small; [reflexivity|]. change (2 ^ 64) with 18446744073709551616. lia.
Qed.
Print Assumptions C67_int_roundtrip.
Example C67_case : write_int (-2147483648) = T"-2147483648" /\ read_int as_sint8 5%Z T"-7" = Ok (mkRd (-7)%Z true 0)
  /\ read_int as_size_t 5 (write_size 2147483647) = Ok (mkRd 2147483647 true 0).
Proof. vm_compute. repeat split; reflexivity. Qed.
(** Unsigned values from 2^31 on can be written, but reading them back is undefined (atoi overflow). *)
Theorem C67_large_unsigned_refuted : exists v, v < 4294967296 /\ read_int as_uint32 0 (write_int (Z.of_N v)) = UB
  /\ read_int as_size_t 0 (write_size v) = UB.
Proof. exists 2147483648. split; [lia|]. vm_compute. split; reflexivity. Qed.
Print Assumptions C67_large_unsigned_refuted.
(** A number outside the type is cut without an error. *)
Theorem C67_silent_cut_refuted : exists s, s = T"300" /\ read_int as_uint8 0 s = Ok (mkRd 44 true 0)
  /\ read_int as_sint8 0%Z s = Ok (mkRd 44%Z true 0).
Proof. eexists. split; [reflexivity|]. vm_compute. split; reflexivity. Qed.
Print Assumptions C67_silent_cut_refuted.
(** DMX breaks: 0 is written as "Overwrite". *)
Theorem C67_break_roundtrip : forall v old, sint32 v -> read_break old (write_break v) = Ok (mkRd v true 0).
Proof.
  intros v old Hv. unfold write_break. destruct (v =? 0)%Z eqn:E.
  - assert (v = 0)%Z by lia. subst v. vm_compute. reflexivity.
  - unfold read_break, write_int. rewrite int_text_nonempty.
    destruct (txeq (int_text v) T"Overwrite") eqn:Et.
    + exfalso. apply txeq_iff in Et. destruct (int_text_chars v) as [F _].
      destruct (int_text v) as [|c r]; [discriminate Et|]. pose proof (Forall_inv F) as Hc. cbv beta in Hc.
      change (make_upper T"Overwrite") with (79 :: make_upper T"verwrite") in Et.
      change (make_upper (c :: r)) with (to_upper c :: make_upper r) in Et.
      assert (to_upper c = 79) by congruence. unfold to_upper, digit in *. destruct (_ && _) eqn:?; lia.
    + rewrite atoi_int_text by exact Hv. reflexivity.
Qed.
Print Assumptions C67_break_roundtrip.
Example C67_break_case : write_break 0 = T"Overwrite" /\ read_break 9 (write_break (-3)) = Ok (mkRd (-3)%Z true 0).
Proof. vm_compute. split; reflexivity. Qed.

(** ** C42: dates *)
Definition time_ok (d : stime) : Prop :=
  fYear d < 65536 /\ fMonth d < 65536 /\ fDay d < 65536 /\ fHour d < 65536 /\ fMinute d < 65536 /\ fSecond d < 65536.

Lemma digits_val_app0 r : digits_val (48 :: r) 0 = digits_val r 0.
Proof. reflexivity. Qed.
Lemma two_digits_spec v : v < 65536 -> Forall digit (two_digits (Z.of_N v)) /\ two_digits (Z.of_N v) <> []
  /\ atoi (two_digits (Z.of_N v)) = Ok (Z.of_N v).
Proof.
  intros Hv. unfold two_digits. rewrite itoa_N by lia. destruct (dec_spec v) as (F & Hn & _).
  destruct (Z.of_N v <? 10)%Z.
  - change (T"0" ++ dec v) with (48 :: dec v).
    assert (F' : Forall digit (48 :: dec v)) by (constructor; [unfold digit; lia|exact F]).
    split; [exact F'|]. split; [discriminate|]. rewrite digits_atoi by (assumption || discriminate).
    rewrite digits_val_app0, dec_val. unfold int_result. replace (_ && _) with true by lia. reflexivity.
  - split; [exact F|]. split; [exact Hn|]. rewrite digits_atoi by assumption.
    rewrite dec_val. unfold int_result. replace (_ && _) with true by lia. reflexivity.
Qed.
Lemma digits_notin c s : ~ digit c -> Forall digit s -> ~ In c s.
Proof. intros H F Hc. rewrite Forall_forall in F. apply H, F, Hc. Qed.

Lemma find_str_ch s c : ~ In c s -> forall t, tx_find (s ++ [c] ++ t) [c] 0 false = Some (nlen s).
Proof.
  intros H t. pose proof (find_occ false (s ++ [c] ++ t) [c] 0) as F. cbv iota in F.
  change (fold false) with (fun c : N => c) in F.
  assert (O : occ (fun x => x) [c] (s ++ [c] ++ t) (nlen s)) by (exists s, [c], t; auto).
  assert (NO : forall q, q < nlen s -> ~ occ (fun x => x) [c] (s ++ [c] ++ t) q).
  { intros q Hq (a & m & b & E1 & E2 & E3). rewrite !map_id in E3. subst m.
    apply H. assert (X : nth_error (s ++ [c] ++ t) (N.to_nat q) = Some c).
    { rewrite E1, nth_error_app2 by (unfold nlen in *; lia). replace (_ - _)%nat with 0%nat by (unfold nlen in *; lia). reflexivity. }
    rewrite nth_error_app1 in X by (unfold nlen in Hq; lia). eapply nth_error_In, X. }
  change (tx_find (s ++ [c] ++ t) [c] 0 false) with (ustr_find (s ++ [c] ++ t) [c] 0).
  destruct (ustr_find _ _ _) as [k|].
  - destruct F as (A & B & D). f_equal.
    destruct (N.lt_trichotomy k (nlen s)) as [L|[E|L]]; [|exact E|].
    + exfalso. exact (NO k L B).
    + exfalso. apply (D (nlen s)); [lia|exact L|exact O].
  - exfalso. apply (F (nlen s)); [lia|exact O].
Qed.

Theorem C42_date_roundtrip : forall d, time_ok d -> read_date (write_date d) = Ok (mkRd d true 0).
Proof.
  intros [y mo da h mi se] (Hy & Hmo & Hda & Hh & Hmi & Hse). cbn [fYear fMonth fDay fHour fMinute fSecond] in *.
  set (cal := join_with [45] [itoa (Z.of_N y); two_digits (Z.of_N mo); two_digits (Z.of_N da)]).
  set (clock := join_with [58] [two_digits (Z.of_N h); two_digits (Z.of_N mi); two_digits (Z.of_N se)]).
  assert (W : write_date (mkTime y mo da h mi se) = cal ++ [84] ++ clock).
  { unfold write_date, cal, clock. cbn [fYear fMonth fDay fHour fMinute fSecond join_with].
    rewrite <- !app_assoc. reflexivity. }
  destruct (two_digits_spec mo Hmo) as (Fmo & Nmo & Amo). destruct (two_digits_spec da Hda) as (Fda & Nda & Ada).
  destruct (two_digits_spec h Hh) as (Fh & Nh & Ah). destruct (two_digits_spec mi Hmi) as (Fmi & Nmi & Ami).
  destruct (two_digits_spec se Hse) as (Fse & Nse & Ase).
  destruct (dec_spec y) as (Fy & Ny & _).
  assert (Ey : itoa (Z.of_N y) = dec y) by (apply itoa_N; lia).
  assert (Ay : atoi (dec y) = Ok (Z.of_N y)).
  { rewrite digits_atoi by assumption. rewrite dec_val. unfold int_result. replace (_ && _) with true by lia. reflexivity. }
  assert (C1 : deser cal 45 [] = Ok [Z.of_N y; Z.of_N mo; Z.of_N da]).
  { unfold cal. rewrite deser_join with (zs := [Z.of_N y; Z.of_N mo; Z.of_N da]); [reflexivity| |discriminate].
    repeat constructor; try assumption; try (rewrite Ey; assumption);
      apply digits_notin; try (unfold digit; lia); try assumption. rewrite Ey; assumption. }
  assert (C2 : deser clock 58 [] = Ok [Z.of_N h; Z.of_N mi; Z.of_N se]).
  { unfold clock. rewrite deser_join with (zs := [Z.of_N h; Z.of_N mi; Z.of_N se]); [reflexivity| |discriminate].
    repeat constructor; try assumption; apply digits_notin; try (unfold digit; lia); assumption. }
  assert (Hcal : ~ In 84 cal).
  { assert (F : Forall (fun c => digit c \/ c = 45) cal).
    { unfold cal. apply join_chars; [right; reflexivity|]. rewrite Ey.
      repeat constructor; (eapply Forall_impl; [|eassumption]); cbv beta; auto. }
    intros I. rewrite Forall_forall in F. specialize (F 84 I). unfold digit in F. lia. }
  unfold read_date. rewrite W.
  assert (En : is_empty (cal ++ [84] ++ clock) = false) by (destruct cal; reflexivity). rewrite En.
  unfold deser_date. change (T"T") with [84]. rewrite find_str_ch by exact Hcal.
  destruct (nlen cal) as [|k] eqn:Ek.
  { exfalso. unfold cal in Ek. rewrite Ey in Ek. cbn [join_with] in Ek. rewrite nlen_app in Ek.
    destruct (dec y); [congruence|]. rewrite nlen_cons in Ek. lia. }
  replace (Pos.to_nat k) with (List.length cal) by (unfold nlen in Ek; lia).
  change (fun i : nat => get_at (cal ++ [84] ++ clock) i) with (get_at (cal ++ [84] ++ clock)).
  rewrite seq_get by (rewrite app_length; lia).
  rewrite firstn_app, firstn_all, Nat.sub_diag, firstn_O, app_nil_r.
  assert (Eclock : map (get_at (cal ++ [84] ++ clock)) (seq (S (List.length cal)) (List.length (cal ++ [84] ++ clock) - S (List.length cal))) = clock).
  { rewrite app_assoc. replace (S (List.length cal)) with (List.length (cal ++ [84])) by (rewrite app_length; cbn; lia).
    replace (Nat.sub (List.length ((cal ++ [84]) ++ clock)) (List.length (cal ++ [84]))) with (List.length clock)
      by (rewrite (app_length (cal ++ [84])); lia).
    rewrite seq_get_gen by lia. apply firstn_all. }
  rewrite Eclock, C1. cbn [bind]. rewrite C2. cbn [bind List.length Nat.eqb andb app map].
  rewrite !u16_small by assumption. reflexivity.
Qed.
Print Assumptions C42_date_roundtrip.
Example C42_case : time_ok (mkTime 2023 4 9 23 5 59)
  /\ write_date (mkTime 2023 4 9 23 5 59) = T"2023-04-09T23:05:59"
  /\ read_date T"2023-04-09T23:05:59" = Ok (mkRd (mkTime 2023 4 9 23 5 59) true 0).
Proof. split; [unfold time_ok; cbn; lia|]. vm_compute. split; reflexivity. Qed.
(** The text has the standard's 19-character form for four-digit years and two-digit fields. *)
Definition two (v : N) : list N := [48 + v / 10; 48 + v mod 10].
Lemma two_digits_two v : v < 100 -> two_digits (Z.of_N v) = two v.
Proof.
  intros H. unfold two_digits. rewrite itoa_N by lia. destruct (Z.of_N v <? 10)%Z eqn:E.
  - rewrite dec_1 by lia. unfold two. rewrite N.div_small, N.mod_small by lia. reflexivity.
  - rewrite dec_step, dec_1 by lia. reflexivity.
Qed.
Theorem C42_date_format : forall d, 1000 <= fYear d < 10000 -> fMonth d < 100 -> fDay d < 100 -> fHour d < 100 ->
  fMinute d < 100 -> fSecond d < 100 ->
  write_date d = two (fYear d / 100) ++ two (fYear d mod 100) ++ T"-" ++ two (fMonth d) ++ T"-" ++ two (fDay d)
    ++ T"T" ++ two (fHour d) ++ T":" ++ two (fMinute d) ++ T":" ++ two (fSecond d).
Proof.
  intros [y mo da h mi se]. cbn [fYear fMonth fDay fHour fMinute fSecond]. intros H1 H2 H3 H4 H5 H6.
  unfold write_date. cbn [fYear fMonth fDay fHour fMinute fSecond]. rewrite !two_digits_two by assumption.
  rewrite itoa_N by lia. rewrite (app_assoc (two (y / 100))).
  assert (dec y = two (y / 100) ++ two (y mod 100)) as ->; [|reflexivity].
  rewrite dec_step, dec_step, dec_step, dec_1 by lia. unfold two. cbn [app].
  repeat (apply f_equal2; [lia|]). reflexivity.
Qed.
Print Assumptions C42_date_format.

(** ** C43: hexadecimal values *)
(** Value of a text of upper-case hexadecimal digits. *)
Definition hex_val (s : list N) : N := fold_left (fun a c => 16 * a + (if c <? 65 then c - 48 else c - 55)) s 0.
Definition hex_digit (c : N) : Prop := 48 <= c <= 57 \/ 65 <= c <= 70.
Lemma hex_loop_spec : forall f v out, v < 16 ^ N.of_nat f -> exists ds,
  hex_loop (S f) v (T"0x" ++ out) = T"0x" ++ ds ++ out /\ Forall hex_digit ds /\ (0 < v -> ds <> [])
  /\ (List.length ds <= f)%nat
  /\ forall a, fold_left (fun a c => 16 * a + (if c <? 65 then c - 48 else c - 55)) ds a = a * 16 ^ nlen ds + v.
Proof.
  induction f as [|f IH]; intros v out Hv.
  - change (16 ^ N.of_nat 0) with 1 in Hv. replace v with 0 by lia. exists []. cbn [hex_loop N.ltb N.compare].
    split; [reflexivity|]. split; [constructor|]. split; [lia|]. split; [cbn; lia|]. intros a. cbn [fold_left]. rewrite nlen_nil. lia.
  - assert (E : hex_loop (S (S f)) v (T"0x" ++ out) = if 0 <? v then hex_loop (S f) ((v - v mod 16) / 16)
        (insert (T"0x" ++ out) 2 [hex_char (v mod 16)]) else T"0x" ++ out) by reflexivity.
    rewrite E. clear E. destruct (0 <? v) eqn:Ez.
    + assert (Ei : insert (T"0x" ++ out) 2 [hex_char (v mod 16)] = T"0x" ++ hex_char (v mod 16) :: out).
      { unfold insert. destruct out as [|o out].
        - reflexivity.
        - replace (2 <? nlen (T"0x" ++ o :: out)) with true; [reflexivity|].
          change (T"0x" ++ o :: out) with (48 :: 120 :: o :: out). rewrite !nlen_cons. lia. }
      rewrite Ei. replace ((v - v mod 16) / 16) with (v / 16) by lia.
      destruct (IH (v / 16) (hex_char (v mod 16) :: out)) as (ds & E1 & E2 & E3 & EL & E4).
      { replace (N.of_nat (S f)) with (N.succ (N.of_nat f)) in Hv by lia. rewrite N.pow_succ_r' in Hv. lia. }
      exists (ds ++ [hex_char (v mod 16)]). rewrite E1. split; [rewrite <- app_assoc; reflexivity|].
      assert (Hm : v mod 16 < 16) by lia.
      assert (Hh : hex_digit (hex_char (v mod 16))) by (unfold hex_digit, hex_char; destruct (v mod 16 <? 10) eqn:?; lia).
      split; [apply Forall_app; split; [exact E2|constructor; [exact Hh|constructor]]|].
      split; [intros _; destruct ds; discriminate|].
      split; [rewrite app_length; cbn [List.length]; lia|].
      intros a. rewrite fold_left_app, E4. cbn [fold_left]. rewrite nlen_app. change (nlen [hex_char (v mod 16)]) with 1.
      rewrite N.pow_add_r, N.pow_1_r.
      replace (if hex_char (v mod 16) <? 65 then hex_char (v mod 16) - 48 else hex_char (v mod 16) - 55) with (v mod 16)
        by (unfold hex_char; destruct (v mod 16 <? 10) eqn:?; destruct (_ <? 65) eqn:?; lia).
      generalize (16 ^ nlen ds). intros x. nia.
    + exists []. split; [reflexivity|]. split; [constructor|]. split; [lia|]. split; [cbn; lia|].
      intros a. cbn [fold_left]. rewrite nlen_nil, N.pow_0_r. lia.
Qed.
Lemma hex_upper s : Forall hex_digit s -> make_upper s = s.
Proof.
  induction 1 as [|c s H F IH]; [reflexivity|]. change (make_upper (c :: s)) with (to_upper c :: make_upper s). rewrite IH.
  f_equal. unfold to_upper, hex_digit in *. destruct (_ && _) eqn:?; lia.
Qed.
Lemma hex_read_ok : forall s v, Forall hex_digit s ->
  let w := fold_left (fun a c => 16 * a + (if c <? 65 then c - 48 else c - 55)) s v in
  w < two64 -> hex_read_loop s v = (true, w).
Proof.
  induction s as [|c s IH]; intros v F; cbv zeta; cbn [fold_left]; intros H; [reflexivity|].
  inversion F as [|? ? Hc F']; subst. cbn [hex_read_loop].
  set (d := if c <? 65 then c - 48 else c - 55) in *.
  assert (G : forall s a, a <= fold_left (fun a c => 16 * a + (if c <? 65 then c - 48 else c - 55)) s a).
  { clear. induction s as [|x s IH]; intros a; cbn [fold_left]; [lia|]. etransitivity; [|apply IH]. lia. }
  specialize (G s (16 * v + d)).
  assert (Ef : hex_fact c = Some d).
  { unfold hex_fact, d, hex_digit in *. destruct (c <? 65) eqn:?; destruct Hc;
    repeat match goal with |- (if ?b then _ else _) = _ => destruct b eqn:? end; try reflexivity; lia. }
  rewrite Ef. rewrite (N.mod_small (v * 16)) by lia. rewrite N.mod_small by lia.
  replace (v * 16 + d) with (16 * v + d) by lia. apply IH; [exact F'|exact H].
Qed.
Lemma mid2 s : Forall hex_digit s -> mid (48 :: 120 :: s) 2 (nlen (48 :: 120 :: s)) = s.
Proof.
  intros F. unfold mid. rewrite !nlen_cons. destruct (_ <=? 2) eqn:E.
  - destruct s; [reflexivity|]. rewrite nlen_cons in E. lia.
  - unfold substr. change (skipn (N.to_nat 2) (48 :: 120 :: s)) with s. rewrite firstn_all2 by (unfold nlen; lia).
    assert (U : forall c, In c s -> c < 128) by (intros c Hc; rewrite Forall_forall in F; specialize (F c Hc); unfold hex_digit in F; lia).
    unfold trim_invalid, trim_left_invalid. destruct s as [|c s]; [reflexivity|].
    assert (c < 128) by (apply U; left; reflexivity). replace ((56320 <=? c) && (c <=? 57343)) with false by lia.
    unfold trim_right_invalid. assert (last (c :: s) 0 < 128).
    { apply U. destruct (exists_last (l := c :: s)) as (l & x & Ex); [discriminate|]. rewrite Ex, last_last. rewrite in_app_iff. right. left. reflexivity. }
    replace ((55296 <=? last (c :: s) 0) && (last (c :: s) 0 <=? 56319)) with false by lia. reflexivity.
Qed.
(** Upper-case digits after "0x": accepted iff the value fits into 16 bits, otherwise clamped and reported. *)
Theorem C43_hex_read : forall s, Forall hex_digit s -> hex_val s < two64 ->
  read_hex (T"0x" ++ s) = if 65535 <? hex_val s then mkRd 65535 false 1 else mkRd (hex_val s) true 0.
Proof.
  intros s F H. unfold read_hex. change (T"0x" ++ s) with (48 :: 120 :: s).
  assert (EL : equal (left (48 :: 120 :: s) 2) T"0x" = true) by reflexivity. rewrite EL. clear EL.
  rewrite mid2 by exact F. rewrite hex_upper by exact F. rewrite hex_read_ok by assumption. fold (hex_val s).
  destruct (65535 <? hex_val s); reflexivity.
Qed.
Print Assumptions C43_hex_read.
Theorem C43_hex_roundtrip : forall v, v <= 65535 -> read_hex (write_hex v) = mkRd v true 0.
Proof.
  intros v Hv. unfold write_hex. replace (65535 <? v) with false by lia. destruct (v =? 0) eqn:E.
  - assert (v = 0) by lia. subst. vm_compute. reflexivity.
  - destruct (hex_loop_spec 16 v []) as (ds & E1 & E2 & E3 & _ & E4).
    { change (16 ^ N.of_nat 16) with 18446744073709551616. lia. }
    change (T"0x" ++ []) with (T"0x") in E1. rewrite E1, app_nil_r.
    assert (hex_val ds = v) by (unfold hex_val; rewrite E4; lia).
    rewrite C43_hex_read; [|exact E2|unfold two64; lia]. rewrite H. replace (65535 <? v) with false by lia. reflexivity.
Qed.
Print Assumptions C43_hex_roundtrip.
(** The text is the prefix and at least one upper-case digit. *)
Theorem C43_hex_shape : forall v, exists ds, write_hex v = T"0x" ++ ds /\ ds <> [] /\ Forall hex_digit ds /\ hex_val ds = N.min v 65535.
Proof.
  intros v. unfold write_hex. destruct (65535 <? v) eqn:E0; [|destruct (v =? 0) eqn:E].
  - exists (T"FFFF"). split; [reflexivity|]. split; [discriminate|]. split; [repeat (apply Forall_cons; [right; cbv; split; discriminate|]); apply Forall_nil|].
    rewrite N.min_r by lia. reflexivity.
  - exists (T"0"). split; [reflexivity|]. split; [discriminate|]. split; [apply Forall_cons; [left; cbv; split; discriminate|apply Forall_nil]|].
    rewrite N.min_l by lia. assert (v = 0) by lia. subst. reflexivity.
  - destruct (hex_loop_spec 16 v []) as (ds & E1 & E2 & E3 & _ & E4).
    { change (16 ^ N.of_nat 16) with 18446744073709551616. lia. }
    change (T"0x" ++ []) with (T"0x") in E1. rewrite app_nil_r in E1.
    assert (V : hex_val ds = v) by (unfold hex_val; rewrite E4; lia).
    exists ds. split; [exact E1|]. split; [intros ->; cbv in V; lia|]. split; [exact E2|]. lia.
Qed.
Print Assumptions C43_hex_shape.
Example C43_case : write_hex 2748 = T"0xABC" /\ read_hex T"0xABC" = mkRd 2748 true 0
  /\ read_hex T"0xabc" = mkRd 2748 true 0 /\ read_hex T"0x10000" = mkRd 65535 false 1.
Proof. vm_compute. repeat split; reflexivity. Qed.
(** Larger values are written as 0xFFFF. *)
Theorem C43_hex_write_clamped : forall v, 65535 < v -> write_hex v = T"0xFFFF".
Proof. intros v H. unfold write_hex. replace (65535 <? v) with true by lia. reflexivity. Qed.
Print Assumptions C43_hex_write_clamped.
(** With 17 digits the running value wraps around: a value of 2^64+1 is accepted as 1. *)
Theorem C43_wraparound_refuted : exists s, Forall hex_digit s /\ hex_val s = 18446744073709551617
  /\ read_hex (T"0x" ++ s) = mkRd 1 true 0.
Proof.
  exists [49;48;48;48;48;48;48;48;48;48;48;48;48;48;48;48;49]. split.
  - repeat (apply Forall_cons; [left; lia|]). apply Forall_nil.
  - vm_compute. split; reflexivity.
Qed.
Print Assumptions C43_wraparound_refuted.
(** Without the prefix an error is added but the call still reports success with the value 0. *)
Theorem C43_no_prefix_refuted : exists s, s = T"ABC" /\ read_hex s = mkRd 0 true 1.
Proof. eexists. split; [reflexivity|]. vm_compute. reflexivity. Qed.
Print Assumptions C43_no_prefix_refuted.
