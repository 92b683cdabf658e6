(** Proofs about the JSON lexer and parser. *)
From Coq Require Import List NArith ZArith String Lia Bool.
From Coq Require Import ZifyN ZifyNat ZifyBool.
From Verif Require Import Bytes BytesProofs Txt NumModel NumProofs UtfSpec UtfModel UtfProofs JsonModel JsonProofs.
Import ListNotations.
Open Scope N_scope.
Ltac Zify.zify_post_hook ::= Z.div_mod_to_equations.

(** ** String literals *)
Lemma hex_digit_hex1 d : d < 16 -> hex_digit (hex1 d) = Some d.
Proof.
  intros H. unfold hex1, hex_digit. destruct (d <? 10) eqn:E.
  - replace (_ && _) with true by lia. f_equal. lia.
  - replace ((48 <=? 87 + d) && (87 + d <=? 57)) with false by lia.
    replace ((65 <=? 87 + d) && (87 + d <=? 70)) with false by lia.
    replace ((97 <=? 87 + d) && (87 + d <=? 102)) with true by lia. f_equal. lia.
Qed.
Lemma get_codepoint_hex c r : c < 65536 ->
  get_codepoint (hex1 (c / 4096 mod 16) :: hex1 (c / 256 mod 16) :: hex1 (c / 16 mod 16) :: hex1 (c mod 16) :: r) = Some (c, r).
Proof.
  intros H. unfold get_codepoint. rewrite !hex_digit_hex1 by lia.
  rewrite !N.shiftl_mul_pow2. change (2 ^ 12) with 4096. change (2 ^ 8) with 256. change (2 ^ 4) with 16.
  f_equal. f_equal. lia.
Qed.
Lemma ssl_step f c r acc : scan_string_loop (S f) (c :: r) acc =
  if c =? 34 then Some (acc, r)
  else if c =? 92 then match scan_escape r with Some (s, r') => scan_string_loop f r' (acc ++ s) | None => None end
  else match lead_ranges c with
       | None => None
       | Some rs => match in_ranges r rs with Some (s, r') => scan_string_loop f r' (acc ++ c :: s) | None => None end
       end.
Proof. reflexivity. Qed.
Lemma ssl_lead f c r acc rs s r' : c <> 34 -> c <> 92 -> lead_ranges c = Some rs -> in_ranges r rs = Some (s, r') ->
  scan_string_loop (S f) (c :: r) acc = scan_string_loop f r' (acc ++ c :: s).
Proof.
  intros H1 H2 E1 E2. rewrite ssl_step. replace (c =? 34) with false by lia. replace (c =? 92) with false by lia.
  now rewrite E1, E2.
Qed.
Lemma in_ranges_cons c r lo hi rs s r' : lo <= c <= hi -> in_ranges r rs = Some (s, r') ->
  in_ranges (c :: r) ((lo, hi) :: rs) = Some (c :: s, r').
Proof. intros H E. cbn [in_ranges]. replace (_ && _) with true by lia. now rewrite E. Qed.

Lemma scan_cp f c r acc : scalar c ->
  scan_string_loop (S f) (esc_cp c ++ r) acc = scan_string_loop f r (acc ++ enc8_1 c).
Proof.
  intros Hs. unfold scalar in Hs. unfold esc_cp, enc8_1.
  destruct (c <? 128) eqn:E1.
  { unfold esc_accept.
    destruct (c =? 8) eqn:C1; [apply N.eqb_eq in C1; subst; reflexivity|].
    destruct (c =? 9) eqn:C2; [apply N.eqb_eq in C2; subst; reflexivity|].
    destruct (c =? 10) eqn:C3; [apply N.eqb_eq in C3; subst; reflexivity|].
    destruct (c =? 12) eqn:C4; [apply N.eqb_eq in C4; subst; reflexivity|].
    destruct (c =? 13) eqn:C5; [apply N.eqb_eq in C5; subst; reflexivity|].
    destruct (c =? 34) eqn:C6; [apply N.eqb_eq in C6; subst; reflexivity|].
    destruct (c =? 92) eqn:C7; [apply N.eqb_eq in C7; subst; reflexivity|].
    destruct (c <=? 31) eqn:C8.
    - unfold u_escape. cbn [app]. rewrite ssl_step. change (92 =? 34) with false. change (92 =? 92) with true. cbv iota.
      unfold scan_escape. change (117 =? 34) with false. change (117 =? 92) with false. change (117 =? 47) with false.
      change (117 =? 98) with false. change (117 =? 102) with false. change (117 =? 110) with false.
      change (117 =? 114) with false. change (117 =? 116) with false. change (117 =? 117) with true. cbv iota.
      unfold scan_u. rewrite get_codepoint_hex by lia.
      replace ((55296 <=? c) && (c <=? 56319)) with false by lia. replace ((56320 <=? c) && (c <=? 57343)) with false by lia.
      unfold put_cp. rewrite E1. reflexivity.
    - cbn [app]. rewrite (ssl_lead f c r acc [] [] r); [reflexivity|lia|lia| |reflexivity].
      unfold lead_ranges. replace (c <? 32) with false by lia. now replace (c <=? 127) with true by lia. }
  destruct (c <? 2048) eqn:E2.
  { cbn [app]. eapply ssl_lead; [lia|lia| |].
    - unfold lead_ranges. replace (_ <? 32) with false by lia. replace (_ <=? 127) with false by lia.
      replace (_ && _) with true by lia. reflexivity.
    - apply in_ranges_cons; [lia|reflexivity]. }
  destruct (c <? 65536) eqn:E3.
  { cbn [app]. set (b0 := 224 + c / 4096). set (b1 := 128 + c / 64 mod 64). set (b2 := 128 + c mod 64).
    assert (H0 : 224 <= b0 < 240) by (unfold b0; lia). assert (H1 : 128 <= b1 < 192) by (unfold b1; lia).
    assert (H2 : 128 <= b2 < 192) by (unfold b2; lia).
    assert (H3 : b0 = 224 -> 160 <= b1) by (unfold b0, b1; lia).
    assert (H4 : b0 = 237 -> b1 < 160) by (unfold b0, b1; lia).
    clearbody b0 b1 b2.
    assert (K : exists rs, lead_ranges b0 = Some rs /\ in_ranges (b1 :: b2 :: r) rs = Some ([b1; b2], r)).
    { unfold lead_ranges. replace (b0 <? 32) with false by lia. replace (b0 <=? 127) with false by lia.
      replace ((194 <=? b0) && (b0 <=? 223)) with false by lia.
      destruct (b0 =? 224) eqn:Q1; [eexists; split; [reflexivity|]; repeat (apply in_ranges_cons; [lia|]); reflexivity|].
      destruct (((225 <=? b0) && (b0 <=? 236)) || (b0 =? 238) || (b0 =? 239)) eqn:Q2;
        [eexists; split; [reflexivity|]; repeat (apply in_ranges_cons; [lia|]); reflexivity|].
      replace (b0 =? 237) with true by lia. eexists; split; [reflexivity|]; repeat (apply in_ranges_cons; [lia|]); reflexivity. }
    destruct K as (rs & K1 & K2). eapply ssl_lead; [lia|lia|exact K1|exact K2]. }
  cbn [app]. set (b0 := 240 + c / 262144). set (b1 := 128 + c / 4096 mod 64). set (b2 := 128 + c / 64 mod 64). set (b3 := 128 + c mod 64).
  assert (H0 : 240 <= b0 < 245) by (unfold b0; lia). assert (H1 : 128 <= b1 < 192) by (unfold b1; lia).
  assert (H2 : 128 <= b2 < 192) by (unfold b2; lia). assert (H2' : 128 <= b3 < 192) by (unfold b3; lia).
  assert (H3 : b0 = 240 -> 144 <= b1) by (unfold b0, b1; lia).
  assert (H4 : b0 = 244 -> b1 < 144) by (unfold b0, b1; lia).
  clearbody b0 b1 b2 b3.
  assert (K : exists rs, lead_ranges b0 = Some rs /\ in_ranges (b1 :: b2 :: b3 :: r) rs = Some ([b1; b2; b3], r)).
  { unfold lead_ranges. replace (b0 <? 32) with false by lia. replace (b0 <=? 127) with false by lia.
    replace ((194 <=? b0) && (b0 <=? 223)) with false by lia. replace (b0 =? 224) with false by lia.
    replace (((225 <=? b0) && (b0 <=? 236)) || (b0 =? 238) || (b0 =? 239)) with false by lia. replace (b0 =? 237) with false by lia.
    destruct (b0 =? 240) eqn:Q1; [eexists; split; [reflexivity|]; repeat (apply in_ranges_cons; [lia|]); reflexivity|].
    destruct ((241 <=? b0) && (b0 <=? 243)) eqn:Q2;
      [eexists; split; [reflexivity|]; repeat (apply in_ranges_cons; [lia|]); reflexivity|].
    replace (b0 =? 244) with true by lia. eexists; split; [reflexivity|]; repeat (apply in_ranges_cons; [lia|]); reflexivity. }
  destruct K as (rs & K1 & K2). eapply ssl_lead; [lia|lia|exact K1|exact K2].
Qed.
Lemma esc_cp_len c : (1 <= List.length (esc_cp c))%nat.
Proof.
  unfold esc_cp, esc_accept, enc8_1, u_escape.
  repeat match goal with |- context [if ?b then _ else _] => destruct b end; cbn [List.length]; lia.
Qed.
Lemma ssl_enc : forall cs fuel r acc, Forall scalar cs -> (List.length (flat_map esc_cp cs) < fuel)%nat ->
  scan_string_loop fuel (flat_map esc_cp cs ++ 34 :: r) acc = Some (acc ++ enc8 cs, r).
Proof.
  induction cs as [|c cs IH]; intros fuel r acc F L; (destruct fuel as [|fuel]; [lia|]).
  - cbn [flat_map app]. rewrite ssl_step. change (34 =? 34) with true. cbv iota. now rewrite app_nil_r.
  - inversion_clear F as [|? ? Hs F']. cbn [flat_map] in *. rewrite app_length in L. pose proof (esc_cp_len c).
    rewrite <- app_assoc, scan_cp by exact Hs. rewrite IH by (auto; lia). now rewrite <- app_assoc, <- enc8_cons.
Qed.
Lemma scan_string_enc cs r : Forall scalar cs -> scan_string (flat_map esc_cp cs ++ 34 :: r) = (TStr (enc8 cs), r).
Proof.
  intros F. unfold scan_string. rewrite ssl_enc; [reflexivity|exact F|]. rewrite app_length. cbn [List.length]. lia.
Qed.

(** ** White space *)
Lemma skip_id c r : json_ws c = false -> c <> 47 -> skip (c :: r) = Some (c :: r).
Proof. intros H1 H2. unfold skip. cbn [skip_loop skip_ws]. rewrite H1. now replace (c =? 47) with false by lia. Qed.
Lemma skip_nil : skip [] = Some []. Proof. reflexivity. Qed.

(** ** Numbers *)
Lemma span_digits_app d r : Forall digit d -> match r with c :: _ => is_digit c = false | [] => True end ->
  span_digits (d ++ r) = (d, r).
Proof.
  induction d as [|x d IH]; intros F H; cbn [app].
  - destruct r as [|c r]; [reflexivity|]. cbn [span_digits]. now rewrite H.
  - inversion_clear F as [|? ? Hx F']. apply is_digit_iff in Hx. cbn [span_digits]. rewrite Hx, IH by auto. reflexivity.
Qed.
(** What can follow a value in a dumped document. *)
Definition delim (r : list N) : Prop := match r with [] => True | c :: _ => c = 44 \/ c = 93 \/ c = 125 end.
Lemma delim_not_digit r : delim r -> match r with c :: _ => is_digit c = false | [] => True end.
Proof. destruct r as [|c r]; cbn [delim]; [auto|]. unfold is_digit. lia. Qed.
Lemma frac_none r : delim r -> scan_frac r = Some (None, r) /\ scan_exp r = Some (None, r).
Proof.
  destruct r as [|c r]; cbn [delim]; [auto|]. intros H. unfold scan_frac, scan_exp.
  replace (c =? 46) with false by lia. now replace ((c =? 101) || (c =? 69)) with false by lia.
Qed.
Lemma dec_head n : exists c d, dec n = c :: d /\ digit c /\ (c = 48 -> d = []).
Proof.
  pattern n. apply (well_founded_induction N.lt_wf_0). clear n. intros n IH.
  destruct (N.lt_ge_cases n 10) as [L|L].
  - rewrite dec_1 by exact L. exists (48 + n), []. split; [reflexivity|]. split; [unfold digit; lia|auto].
  - rewrite dec_step by exact L. destruct (IH (n / 10)) as (c & d & E & D & Z); [lia|]. rewrite E.
    exists c, (d ++ [48 + n mod 10]). split; [reflexivity|]. split; [exact D|].
    intros ->. exfalso. specialize (Z eq_refl). subst d.
    assert (V : digits_val (dec (n / 10)) 0 = n / 10) by apply dec_val. rewrite E in V. cbn in V. lia.
Qed.
Lemma int_part_dec n r : delim r -> scan_int_part (dec n ++ r) = Some (dec n, r).
Proof.
  intros H. destruct (dec_head n) as (c & d & E & D & Z). destruct (dec_spec n) as [F _]. rewrite E in *.
  cbn [app]. unfold scan_int_part. destruct (c =? 48) eqn:E0.
  - apply N.eqb_eq in E0. subst c. rewrite (Z eq_refl). reflexivity.
  - pose proof D as D'. apply is_digit_iff in D'. rewrite D'. f_equal.
    apply (span_digits_app (c :: d) r F). now apply delim_not_digit.
Qed.
Lemma scan_number_dec n r : delim r -> n < 2 ^ 64 -> scan_number (dec n ++ r) = (TUns n, r).
Proof.
  intros H Hn. destruct (dec_head n) as (c & d & E & D & Z). unfold scan_number.
  assert (E1 : (match dec n ++ r with c :: r0 => if c =? 45 then (true, r0) else (false, dec n ++ r) | [] => (false, dec n ++ r) end)
     = (false, dec n ++ r)).
  { rewrite E. cbn [app]. unfold digit in D. now replace (c =? 45) with false by lia. }
  rewrite E1. rewrite int_part_dec by exact H. destruct (frac_none r H) as [-> K]. rewrite K. unfold dval. rewrite dec_val.
  now replace (n <? 2 ^ 64) with true by lia.
Qed.
Lemma scan_number_neg n r : delim r -> n <= 2 ^ 63 -> scan_number (45 :: dec n ++ r) = (TInt (- Z.of_N n), r).
Proof.
  intros H Hn. unfold scan_number. change (45 =? 45) with true. cbv iota beta.
  rewrite int_part_dec by exact H. destruct (frac_none r H) as [-> K]. rewrite K. unfold dval. rewrite dec_val.
  now replace (n <=? 2 ^ 63) with true by lia.
Qed.

(** ** One token *)
Ltac tok c := (* the tests of scan on a known first byte *)
  unfold scan; rewrite skip_id by (try reflexivity; easy).
Lemma scan_lbracket r : scan (91 :: r) = (TBeginArr, r). Proof. tok 91. reflexivity. Qed.
Lemma scan_rbracket r : scan (93 :: r) = (TEndArr, r). Proof. tok 93. reflexivity. Qed.
Lemma scan_lbrace r : scan (123 :: r) = (TBeginObj, r). Proof. tok 93. reflexivity. Qed.
Lemma scan_rbrace r : scan (125 :: r) = (TEndObj, r). Proof. tok 93. reflexivity. Qed.
Lemma scan_colon r : scan (58 :: r) = (TColon, r). Proof. tok 93. reflexivity. Qed.
Lemma scan_comma r : scan (44 :: r) = (TComma, r). Proof. tok 93. reflexivity. Qed.
Lemma scan_quote r : scan (34 :: r) = scan_string r. Proof. tok 93. reflexivity. Qed.
Lemma scan_true r : scan (T"true" ++ r) = (TTrue, r). Proof. cbn [txt map list_ascii_of_string app]. change (T"true") with [116; 114; 117; 101]. cbn [app]. tok 93. reflexivity. Qed.
Lemma scan_false r : scan (T"false" ++ r) = (TFalse, r). Proof. change (T"false") with [102; 97; 108; 115; 101]. cbn [app]. tok 93. reflexivity. Qed.
Lemma scan_null r : scan (T"null" ++ r) = (TNull, r). Proof. change (T"null") with [110; 117; 108; 108]. cbn [app]. tok 93. reflexivity. Qed.
Lemma scan_digit c r : digit c -> scan (c :: r) = scan_number (c :: r).
Proof.
  intros D. unfold digit in D. unfold scan. rewrite skip_id; [|unfold json_ws; lia|lia].
  repeat match goal with |- context [c =? ?k] => replace (c =? k) with false by lia end.
  assert (is_digit c = true) as -> by (apply is_digit_iff; exact D). reflexivity.
Qed.
Lemma scan_dec n r : delim r -> n < 2 ^ 64 -> scan (dec n ++ r) = (TUns n, r).
Proof.
  intros H Hn. destruct (dec_head n) as (c & d & E & D & _). rewrite <- (scan_number_dec n r H Hn). rewrite E. cbn [app].
  now apply scan_digit.
Qed.
Lemma scan_neg n r : delim r -> n <= 2 ^ 63 -> scan (45 :: dec n ++ r) = (TInt (- Z.of_N n), r).
Proof. intros H Hn. rewrite <- (scan_number_neg n r H Hn). tok 93. reflexivity. Qed.

(** ** Lengths: a token other than an end or an error consumes a byte *)
Lemma skip_ws_len b : (List.length (skip_ws b) <= List.length b)%nat.
Proof. induction b as [|c b IH]; cbn [skip_ws]; [lia|]. destruct (json_ws c); cbn [List.length]; lia. Qed.
Lemma line_len b : (List.length (line_comment b) <= List.length b)%nat.
Proof. induction b as [|c b IH]; cbn [line_comment]; [lia|]. destruct (_ || _); cbn [List.length]; lia. Qed.
Lemma block_len : forall n b r, (List.length b <= n)%nat -> block_comment b = Some r -> (List.length r <= List.length b)%nat.
Proof.
  induction n as [|n IH]; intros b r L E; destruct b as [|c b]; cbn [block_comment List.length] in *; try discriminate; try lia.
  destruct (c =? 0); [discriminate|]. destruct (c =? 42).
  - destruct b as [|d b]; [discriminate|]. destruct (d =? 47); [injection E as <-; cbn [List.length]; lia|].
    apply IH in E; cbn [List.length] in *; lia.
  - apply IH in E; lia.
Qed.
Lemma comment_len b r : scan_comment b = Some r -> (List.length r <= List.length b)%nat.
Proof.
  unfold scan_comment. destruct b as [|c b]; [discriminate|]. destruct (c =? 47).
  - intros [= <-]. pose proof (line_len b). cbn [List.length]. lia.
  - destruct (c =? 42); [|discriminate]. intros E. apply (block_len (List.length b)) in E; cbn [List.length]; lia.
Qed.
Lemma skip_loop_len : forall f b r, skip_loop f b = Some r -> (List.length r <= List.length b)%nat.
Proof.
  induction f as [|f IH]; intros b r E; cbn [skip_loop] in E; [discriminate|].
  pose proof (skip_ws_len b) as L. destruct (skip_ws b) as [|c r0]; [injection E as <-; cbn [List.length]; lia|].
  destruct (c =? 47); [|injection E as <-; exact L].
  destruct (scan_comment r0) as [r1|] eqn:E1; [|discriminate]. apply comment_len in E1. apply IH in E. cbn [List.length] in L. lia.
Qed.
Lemma literal_len : forall lit b t t' r, scan_literal b lit t = (t', r) -> (List.length r <= List.length b)%nat.
Proof.
  induction lit as [|l lit IH]; intros b t t' r E; cbn [scan_literal] in E; [injection E as <- <-; lia|].
  destruct b as [|c b]; [injection E as <- <-; lia|]. destruct (c =? l).
  - apply IH in E. cbn [List.length]. lia.
  - injection E as <- <-. cbn [List.length]. lia.
Qed.
Lemma codepoint_len b c r : get_codepoint b = Some (c, r) -> (List.length r <= List.length b)%nat.
Proof.
  unfold get_codepoint. destruct b as [|a1 [|a2 [|a3 [|a4 b]]]]; try discriminate.
  destruct (hex_digit a1), (hex_digit a2), (hex_digit a3), (hex_digit a4); try discriminate. intros [= <- <-]. cbn [List.length]. lia.
Qed.
Lemma scan_u_len b s r : scan_u b = Some (s, r) -> (List.length r <= List.length b)%nat.
Proof.
  unfold scan_u. destruct (get_codepoint b) as [[c1 r1]|] eqn:E; [|discriminate]. apply codepoint_len in E.
  destruct (_ && _).
  - destruct r1 as [|x [|y r2]]; try discriminate. destruct (_ && _); [|discriminate].
    destruct (get_codepoint r2) as [[c2 r3]|] eqn:E2; [|discriminate]. apply codepoint_len in E2.
    destruct (_ && _); [|discriminate]. intros [= <- <-]. cbn [List.length] in E. lia.
  - destruct (_ && _); [discriminate|]. intros [= <- <-]. lia.
Qed.
Lemma escape_len b s r : scan_escape b = Some (s, r) -> (List.length r <= List.length b)%nat.
Proof.
  unfold scan_escape. destruct b as [|c b]; [discriminate|].
  repeat match goal with |- (if ?g then _ else _) = _ -> _ => destruct g end; try discriminate;
    try (intros [= <- <-]; cbn [List.length]; lia).
  intros E. apply scan_u_len in E. cbn [List.length]. lia.
Qed.
Lemma in_ranges_len : forall rs b s r, in_ranges b rs = Some (s, r) -> (List.length r <= List.length b)%nat.
Proof.
  induction rs as [|[lo hi] rs IH]; intros b s r E; cbn [in_ranges] in E; [injection E as <- <-; lia|].
  destruct b as [|c b]; [discriminate|]. destruct (_ && _); [|discriminate].
  destruct (in_ranges b rs) as [[a r']|] eqn:E1; [|discriminate]. injection E as <- <-. apply IH in E1. cbn [List.length]. lia.
Qed.
Lemma ssl_len : forall f b acc s r, scan_string_loop f b acc = Some (s, r) -> (List.length r <= List.length b)%nat.
Proof.
  induction f as [|f IH]; intros b acc s r E; [discriminate|]. destruct b as [|c b]; [discriminate|].
  rewrite ssl_step in E. destruct (c =? 34); [injection E as <- <-; cbn [List.length]; lia|]. destruct (c =? 92).
  - destruct (scan_escape b) as [[x r']|] eqn:E1; [|discriminate]. apply escape_len in E1. apply IH in E. cbn [List.length]. lia.
  - destruct (lead_ranges c) as [rs|]; [|discriminate]. destruct (in_ranges b rs) as [[x r']|] eqn:E1; [|discriminate].
    apply in_ranges_len in E1. apply IH in E. cbn [List.length]. lia.
Qed.
Lemma span_len b : (List.length (snd (span_digits b)) <= List.length b)%nat.
Proof. induction b as [|c b IH]; cbn [span_digits]; [cbn; lia|]. destruct (is_digit c); [|cbn; lia].
  destruct (span_digits b) as [d r]. cbn [snd List.length] in *. lia. Qed.
Lemma int_part_len b i r : scan_int_part b = Some (i, r) -> (List.length r < List.length b)%nat.
Proof.
  unfold scan_int_part. destruct b as [|c b]; [discriminate|]. destruct (c =? 48); [intros [= <- <-]; cbn [List.length]; lia|].
  destruct (is_digit c) eqn:E; [|discriminate]. intros K. cbn [span_digits] in K. rewrite E in K.
  pose proof (span_len b). destruct (span_digits b) as [d r']. injection K as <- <-. cbn [snd List.length] in *. lia.
Qed.
Lemma frac_len b o r : scan_frac b = Some (o, r) -> (List.length r <= List.length b)%nat.
Proof.
  unfold scan_frac. destruct b as [|c b]; [intros [= <- <-]; lia|]. destruct (c =? 46); [|intros [= <- <-]; lia].
  pose proof (span_len b). destruct (span_digits b) as [[|x d] r']; [discriminate|]. intros [= <- <-]. cbn [snd List.length] in *. lia.
Qed.
Lemma exp_len b o r : scan_exp b = Some (o, r) -> (List.length r <= List.length b)%nat.
Proof.
  unfold scan_exp. destruct b as [|c b]; [intros [= <- <-]; lia|]. destruct (_ || _); [|intros [= <- <-]; lia].
  set (sr := match b with s :: r1 => if s =? 45 then ((-1)%Z, r1) else if s =? 43 then (1%Z, r1) else (1%Z, b) | [] => (1%Z, []) end).
  assert (L : (List.length (snd sr) <= List.length b)%nat).
  { unfold sr. destruct b as [|s b]; [cbn; lia|]. destruct (s =? 45); [cbn [snd List.length]; lia|]. destruct (s =? 43); cbn [snd List.length]; lia. }
  destruct sr as [sg r1]. cbn [snd] in L. pose proof (span_len r1). destruct (span_digits r1) as [[|x d] r']; [discriminate|].
  intros [= <- <-]. cbn [snd List.length] in *. lia.
Qed.
Lemma number_len b t r : scan_number b = (t, r) -> t <> TErr -> (List.length r < List.length b)%nat.
Proof.
  unfold scan_number.
  set (nb := match b with c :: r0 => if c =? 45 then (true, r0) else (false, b) | [] => (false, b) end).
  assert (L : (List.length (snd nb) <= List.length b)%nat).
  { unfold nb. destruct b as [|c b]; [cbn; lia|]. destruct (c =? 45); cbn [snd List.length]; lia. }
  destruct nb as [neg b1]. cbn [snd] in L. intros E Ht.
  destruct (scan_int_part b1) as [[i b2]|] eqn:E1; [|injection E as <- <-; easy].
  destruct (scan_frac b2) as [[f b3]|] eqn:E2; [|injection E as <- <-; easy].
  destruct (scan_exp b3) as [[e b4]|] eqn:E3; [|injection E as <- <-; easy].
  apply int_part_len in E1. apply frac_len in E2. apply exp_len in E3.
  assert (r = b4) as ->.
  { destruct f, e; try (injection E as _ <-; reflexivity). destruct neg; destruct (_ : bool); injection E as _ <-; reflexivity. }
  lia.
Qed.
Lemma scan_len b t r : scan b = (t, r) -> (List.length r <= List.length b)%nat /\ (t <> TEnd -> t <> TErr -> (List.length r < List.length b)%nat).
Proof.
  unfold scan, skip. intros E. destruct (skip_loop _ b) as [[|c r0]|] eqn:E1; [| |injection E as <- <-; cbn [List.length]; split; [lia|easy]].
  { injection E as <- <-. cbn [List.length]. split; [lia|easy]. }
  apply skip_loop_len in E1. cbn [List.length] in E1.
  assert (K : (List.length r <= List.length r0)%nat \/ t = TErr /\ (List.length r <= S (List.length r0))%nat).
  2: { destruct K as [K|[-> K]]; split; try lia; easy. }
  repeat match type of E with (if ?g then _ else _) = _ => destruct g end; try (injection E as <- <-; left; lia);
    try (left; eapply literal_len; exact E).
  - left. unfold scan_string in E. destruct (scan_string_loop _ r0 []) as [[s r']|] eqn:E2; injection E as <- <-; [|cbn [List.length]; lia].
    apply ssl_len in E2. exact E2.
  - destruct t; try (left; apply number_len in E; [cbn [List.length] in E; lia|easy]).
    right. split; [reflexivity|]. unfold scan_number in E.
    set (nb := match c :: r0 with c :: r0 => if c =? 45 then (true, r0) else (false, c :: r0) | [] => (false, c :: r0) end) in E.
    assert (L : (List.length (snd nb) <= S (List.length r0))%nat).
    { unfold nb. destruct (c =? 45); cbn [snd List.length]; lia. }
    destruct nb as [neg b1]. cbn [snd] in L.
    destruct (scan_int_part b1) as [[i b2]|] eqn:F1; [|injection E as <-; lia]. apply int_part_len in F1.
    destruct (scan_frac b2) as [[f b3]|] eqn:F2; [|injection E as <-; lia]. apply frac_len in F2.
    destruct (scan_exp b3) as [[e b4]|] eqn:F3; [|injection E as <-; lia]. apply exp_len in F3.
    assert (r = b4) as ->.
    { destruct f, e; try (injection E as _ <-; reflexivity). destruct neg; destruct (_ : bool); injection E as _ <-; reflexivity. }
    lia.
Qed.

(** ** The fuel of the parser is enough *)
Definition stops (t : token) : bool := match t with TEnd | TErr => true | _ => false end.
Definition meas (s : pstate) : nat :=
  match s with
  | SValue t b _ => (2 * List.length b + (if stops t then 1 else 2))%nat
  | SAfter _ b _ => (2 * List.length b + 1)%nat
  end.
Lemma scan_meas b t r : scan b = (t, r) -> (2 * List.length r + (if stops t then 1 else 2) <= 2 * List.length b + 1)%nat.
Proof.
  intros E. apply scan_len in E as [L1 L2]. destruct t; cbn [stops]; try lia; specialize (L2 ltac:(easy) ltac:(easy)); lia.
Qed.
Lemma key_meas t b m st s : parse_key t b m st = inl s -> (meas s <= 2 * List.length b + 1)%nat.
Proof.
  unfold parse_key. destruct t; try discriminate. destruct (scan b) as [t1 b1] eqn:E. apply scan_meas in E.
  destruct t1; try discriminate. destruct (scan b1) as [t2 b2] eqn:E2. apply scan_meas in E2. intros [= <-].
  cbn [meas stops] in *. lia.
Qed.
Lemma pstep_meas s s' : pstep s = inl s' -> (meas s' < meas s)%nat.
Proof.
  destruct s as [t b st|v b st]; cbn [pstep].
  - destruct t; try discriminate; try (intros [= <-]; cbn [meas stops]; lia).
    + destruct (scan b) as [t1 b1] eqn:E. apply scan_meas in E.
      destruct t1; try (intros [= <-]; cbn [meas stops] in *; lia).
    + destruct (scan b) as [t1 b1] eqn:E. apply scan_meas in E.
      destruct t1; try (intros K; apply key_meas in K; cbn [meas stops] in *; lia).
      intros [= <-]; cbn [meas stops] in *; lia.
  - destruct st as [|[l|m k] st']; [discriminate| |].
    + destruct (scan b) as [t1 b1] eqn:E. apply scan_meas in E. destruct t1; try discriminate.
      * intros [= <-]; cbn [meas stops] in *; lia.
      * destruct (scan b1) as [t2 b2] eqn:E2. apply scan_meas in E2. intros [= <-]; cbn [meas stops] in *; lia.
    + destruct (scan b) as [t1 b1] eqn:E. apply scan_meas in E. destruct t1; try discriminate.
      * intros [= <-]; cbn [meas stops] in *; lia.
      * destruct (scan b1) as [t2 b2] eqn:E2. apply scan_meas in E2. intros K; apply key_meas in K; cbn [meas stops] in *; lia.
Qed.
Lemma prun_fuel : forall f s, (meas s < f)%nat -> prun f s <> PFuel.
Proof.
  induction f as [|f IH]; intros s L; [lia|]. cbn [prun]. destruct (pstep s) as [s'|[| |]] eqn:E; try easy.
  - apply IH. apply pstep_meas in E. lia.
  - exfalso. destruct s as [t b st|v b st]; cbn [pstep] in E.
    + destruct t; try discriminate.
      * destruct (scan b) as [t1 b1]; destruct t1; discriminate.
      * destruct (scan b) as [t1 b1]; destruct t1; try discriminate; cbn [parse_key] in E.
        destruct (scan b1) as [t2 b2]; destruct t2; try discriminate. destruct (scan b2); discriminate.
    + destruct st as [|[l|m k] st']; [discriminate| |]; destruct (scan b) as [t1 b1]; destruct t1; try discriminate;
        destruct (scan b1) as [t2 b2]; try discriminate. destruct t2; try discriminate; cbn [parse_key] in E.
      destruct (scan b2) as [t3 b3]; destruct t3; try discriminate. destruct (scan b3); discriminate.
Qed.
Lemma parse_fuel b : parse_run b <> PFuel.
Proof.
  unfold parse_run. destruct (skip_bom b) as [b0|] eqn:E0; [|easy].
  assert (L : (List.length b0 <= List.length b)%nat).
  { unfold skip_bom in E0. destruct b as [|c b]; [injection E0 as <-; lia|]. destruct (c =? 239); [|injection E0 as <-; lia].
    destruct b as [|d [|e b]]; try discriminate. destruct (_ && _); [|discriminate]. injection E0 as <-. cbn [List.length]. lia. }
  destruct (scan b0) as [t b1] eqn:E. apply scan_len in E as [L1 _]. apply prun_fuel. cbn [meas]. destruct (stops t); lia.
Qed.
