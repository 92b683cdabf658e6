(** Proofs about the text conversions. *)
From Coq Require Import List NArith ZArith Lia Bool.
From Coq Require Import ZifyN ZifyNat ZifyBool.
From Verif Require Import Bytes BytesProofs UtfSpec UtfModel.
Import ListNotations.
Open Scope N_scope.
Ltac Zify.zify_post_hook ::= Z.div_mod_to_equations.

(** ** Masks and shifts as arithmetic *)
Lemma byte_all : forall (P : N -> bool),
  forallb P (map N.of_nat (seq 0 256)) = true -> forall c, c < 256 -> P c = true.
Proof.
  intros P H c Hc. rewrite forallb_forall in H. apply H. apply in_map_iff.
  exists (N.to_nat c). split; [lia|]. apply in_seq. lia.
Qed.

Lemma land63 c : N.land c 63 = c mod 64.
Proof. change 63 with (N.ones 6). apply N.land_ones. Qed.
Lemma land31 c : N.land c 31 = c mod 32.
Proof. change 31 with (N.ones 5). apply N.land_ones. Qed.
Lemma land15 c : N.land c 15 = c mod 16.
Proof. change 15 with (N.ones 4). apply N.land_ones. Qed.
Lemma land7 c : N.land c 7 = c mod 8.
Proof. change 7 with (N.ones 3). apply N.land_ones. Qed.
Lemma land1023 c : N.land c 1023 = c mod 1024.
Proof. change 1023 with (N.ones 10). apply N.land_ones. Qed.

Lemma lead1 c : c < 256 -> (N.land c 128 =? 0) = (c <? 128).
Proof.
  intros H. pose proof (byte_all (fun c => Bool.eqb (N.land c 128 =? 0) (c <? 128)) eq_refl c H) as E.
  now apply eqb_prop in E.
Qed.
Lemma lead2 c : c < 256 -> (N.land c 224 =? 192) = ((192 <=? c) && (c <? 224)).
Proof.
  intros H. pose proof (byte_all (fun c => Bool.eqb (N.land c 224 =? 192) ((192 <=? c) && (c <? 224))) eq_refl c H) as E.
  now apply eqb_prop in E.
Qed.
Lemma lead3 c : c < 256 -> (N.land c 240 =? 224) = ((224 <=? c) && (c <? 240)).
Proof.
  intros H. pose proof (byte_all (fun c => Bool.eqb (N.land c 240 =? 224) ((224 <=? c) && (c <? 240))) eq_refl c H) as E.
  now apply eqb_prop in E.
Qed.
Lemma lead4 c : c < 256 -> (N.land c 248 =? 240) = ((240 <=? c) && (c <? 248)).
Proof.
  intros H. pose proof (byte_all (fun c => Bool.eqb (N.land c 248 =? 240) ((240 <=? c) && (c <? 248))) eq_refl c H) as E.
  now apply eqb_prop in E.
Qed.

Ltac dif := match goal with |- context [?c <? ?k] => destruct (c <? k) eqn:? end.
Ltac shifts := rewrite ?N.shiftl_mul_pow2, ?N.shiftr_div_pow2, ?land63, ?land31, ?land15, ?land7, ?land1023.

(** ** One code point *)
Lemma scalarb_spec c : scalarb c = true <-> scalar c.
Proof. unfold scalarb, scalar. lia. Qed.

Lemma lib16_enc c : lib16 c = enc16_1 c.
Proof.
  unfold lib16, enc16_1. destruct (c <? 65536) eqn:E; [reflexivity|].
  apply N.ltb_ge in E. rewrite N.shiftr_div_pow2, land1023. change (2 ^ 10) with 1024.
  f_equal; [lia|]. f_equal. lia.
Qed.
Lemma lib8_enc c : lib8 c = enc8_1 c.
Proof.
  unfold lib8, enc8_1. rewrite ?N.shiftr_div_pow2, ?land63.
  change (2 ^ 6) with 64; change (2 ^ 12) with 4096; change (2 ^ 18) with 262144. reflexivity.
Qed.

Lemma utf32_to_tx_enc c : c < 1114112 -> utf32_to_tx c = enc16_1 c.
Proof.
  intros H. unfold utf32_to_tx, enc16_1, u16, LEAD_OFFSET.
  destruct (c <=? 65535) eqn:E.
  - replace (c <? 65536) with true by lia. f_equal. apply N.mod_small. lia.
  - replace (c <? 65536) with false by lia. replace (c <=? 1114111) with true by lia.
    rewrite !N.shiftr_div_pow2, land1023. change (65536 / 2 ^ 10) with 64. change (2 ^ 10) with 1024.
    f_equal; [|f_equal]; lia.
Qed.

Lemma utf32_to_tx_length c : 1 <= nlen (utf32_to_tx c) <= 2.
Proof.
  unfold utf32_to_tx. repeat destruct (_ <=? _); rewrite ?nlen_cons, nlen_nil; lia.
Qed.

Lemma emit_length w : 1 <= nlen (emit w) <= 2.
Proof. unfold emit. destruct (_ =? 0); rewrite ?nlen_cons, nlen_nil; lia. Qed.
Lemma emit_small w : w <= 65535 -> emit w = [w].
Proof.
  intros H. unfold emit, utf32_to_tx. replace (w <=? 65535) with true by lia.
  cbn [app nth]. change (0 =? 0) with true. cbv iota. unfold u16. now rewrite N.mod_small by lia.
Qed.
Lemma emit_enc w : w < 1114112 -> emit w = enc16_1 w.
Proof.
  intros H. unfold emit. rewrite utf32_to_tx_enc by assumption. unfold enc16_1.
  destruct (w <? 65536) eqn:E; cbn [app nth].
  - reflexivity.
  - replace (_ =? 0) with false by lia. reflexivity.
Qed.

Lemma enc16_1_length c : nlen (enc16_1 c) = if c <? 65536 then 1 else 2.
Proof. unfold enc16_1. destruct (c <? 65536); reflexivity. Qed.
Lemma enc8_1_length c : nlen (enc8_1 c) =
  if c <? 128 then 1 else if c <? 2048 then 2 else if c <? 65536 then 3 else 4.
Proof. unfold enc8_1. repeat destruct (c <? _); reflexivity. Qed.

Lemma enc16_cons c cs : enc16 (c :: cs) = enc16_1 c ++ enc16 cs.
Proof. reflexivity. Qed.
Lemma enc16_app a b : enc16 (a ++ b) = enc16 a ++ enc16 b.
Proof. apply flat_map_app. Qed.
Lemma enc8_cons c cs : enc8 (c :: cs) = enc8_1 c ++ enc8 cs.
Proof. reflexivity. Qed.
Lemma enc8_app a b : enc8 (a ++ b) = enc8 a ++ enc8 b.
Proof. apply flat_map_app. Qed.

(** ** UTF-32 buffers *)
Lemma utf32_buffer_enc : forall cs n, Forall (fun c => scalar c /\ c <> 0) cs ->
  utf32_buffer_to_tx cs n = enc16 (firstn n cs).
Proof.
  induction cs as [|c cs IH]; intros [|n] F; [reflexivity..|].
  inversion_clear F as [|? ? [Hs Hz] F']. cbn [utf32_buffer_to_tx firstn].
  replace (c =? 0) with false by lia. rewrite enc16_cons, IH by assumption.
  rewrite utf32_to_tx_enc; [reflexivity|]. unfold scalar in Hs. lia.
Qed.

Lemma tx_loop_enc : forall cs fuel len, Forall (fun c => scalar c /\ c <> 0) cs ->
  nlen (enc16 cs) <= N.of_nat fuel ->
  tx_to_utf32_loop fuel (enc16 cs) len = firstn (N.to_nat len) cs.
Proof.
  induction cs as [|c cs IH]; intros fuel len F L.
  - rewrite firstn_nil. destruct fuel; [reflexivity|]. cbn. destruct (len =? 0); reflexivity.
  - inversion_clear F as [|? ? [Hs Hz] F'].
    rewrite enc16_cons, nlen_app, enc16_1_length in L.
    destruct fuel as [|fuel]; [destruct (c <? 65536); lia|].
    cbn [tx_to_utf32_loop]. destruct (len =? 0) eqn:El.
    { apply N.eqb_eq in El. subst. reflexivity. }
    replace (N.to_nat len) with (S (N.to_nat (len - 1))) by lia. cbn [firstn].
    rewrite enc16_cons. unfold enc16_1 in *. unfold scalar in Hs. destruct (c <? 65536) eqn:Ec; cbn [app].
    + replace (c =? 0) with false by lia.
      replace ((c <? 55296) || (57343 <? c)) with true by lia.
      f_equal. apply IH; [assumption|lia].
    + replace (_ =? 0) with false by lia.
      replace ((_ <? 55296) || (57343 <? _)) with false by lia.
      cbn [hd tl].
      replace ((_ <? 56320) && _ && _) with true by lia.
      f_equal; [|apply IH; [assumption|lia]].
      rewrite N.shiftl_mul_pow2. change (2 ^ 10) with 1024.
      change SURROGATE_OFFSET with (two32 - 56613888). unfold two32.
      match goal with |- ?x mod _ = _ => replace x with (c + 4294967296 * 1) by lia end.
      rewrite N.mul_comm, N.mod_add by lia. apply N.mod_small. lia.
Qed.

Lemma tx_loop_scalar : forall fuel l len, Forall (fun u => u < 65536) l ->
  Forall (fun c => scalar c /\ c <> 0) (tx_to_utf32_loop fuel l len).
Proof.
  induction fuel as [|fuel IH]; intros l len F; cbn [tx_to_utf32_loop]; [constructor|].
  destruct (len =? 0); [constructor|]. destruct l as [|u l]; [constructor|].
  inversion_clear F as [|? ? Hu F']. destruct (u =? 0) eqn:E0; [constructor|].
  destruct ((u <? 55296) || (57343 <? u)) eqn:E1.
  { constructor; [|apply IH; assumption]. unfold scalar. lia. }
  destruct ((u <? 56320) && (56320 <=? hd 0 l) && (hd 0 l <=? 57343)) eqn:E2.
  - constructor; [|apply IH; destruct l; [constructor|now inversion F']].
    rewrite N.shiftl_mul_pow2. change (2 ^ 10) with 1024.
    change SURROGATE_OFFSET with (two32 - 56613888). unfold two32.
    set (v := hd 0 l) in *. clearbody v.
    match goal with |- context [?x mod 4294967296] =>
      replace x with ((65536 + (u - 55296) * 1024 + (v - 56320)) + 1 * 4294967296) by lia end.
    rewrite N.mod_add by lia. rewrite N.mod_small by lia. unfold scalar. lia.
  - constructor; [unfold scalar; lia|apply IH; assumption].
Qed.

Lemma tx_loop_length : forall fuel l len, nlen (tx_to_utf32_loop fuel l len) <= len.
Proof.
  induction fuel as [|fuel IH]; intros l len; cbn [tx_to_utf32_loop]; [rewrite nlen_nil; lia|].
  destruct (len =? 0) eqn:E; [rewrite nlen_nil; lia|]. destruct l as [|u l]; [rewrite nlen_nil; lia|].
  destruct (u =? 0); [rewrite nlen_nil; lia|].
  destruct (_ || _); [|destruct (_ && _)]; rewrite nlen_cons;
    match goal with |- context [tx_to_utf32_loop fuel ?a ?b] => pose proof (IH a b) end; lia.
Qed.

(** ** The UTF-8 decoder: never outside, never longer *)
Lemma rd_some b i : i < nlen b -> exists c, rd b i = Some c.
Proof.
  intros H. unfold rd. destruct (nth_error b (N.to_nat i)) eqn:E; [eauto|].
  apply nth_error_None in E. unfold nlen in H. lia.
Qed.
Lemma rd_in b i c : rd b i = Some c -> In c b.
Proof. apply nth_error_In. Qed.

Lemma utf8_loop_safe : forall fuel b n i, n <= nlen b -> i <= n -> n < i + N.of_nat fuel ->
  exists j out, utf8_loop fuel b n i = Some (j, out)
    /\ i <= N.max n i /\ i <= j /\ j <= N.max n i /\ nlen out + i <= j.
Proof.
  induction fuel as [|fuel IH]; intros b n i Hn Hi Hf; [lia|].
  cbn [utf8_loop]. destruct (n <=? i) eqn:E.
  { exists i, []. rewrite nlen_nil. repeat split; lia. }
  destruct (rd_some b i) as [c0 E0]; [lia|]. rewrite E0. cbv zeta.
  assert (Hnext : forall k units, 1 <= k -> i + k <= n -> nlen units <= k ->
    exists j out, match utf8_loop fuel b n (i + k) with
        | Some (j, out) => Some (j, units ++ out) | None => None end = Some (j, out)
      /\ i <= N.max n i /\ i <= j /\ j <= N.max n i /\ nlen out + i <= j).
  { intros k units H1 H2 H3. destruct (IH b n (i + k)) as (j & out & Ej & ? & ? & ? & ?); [lia..|].
    exists j, (units ++ out). rewrite Ej, nlen_app. repeat split; lia. }
  assert (Hbrk : exists j out, Some (i, @nil N) = Some (j, out)
      /\ i <= N.max n i /\ i <= j /\ j <= N.max n i /\ nlen out + i <= j).
  { exists i, []. rewrite nlen_nil. repeat split; lia. }
  destruct (N.land c0 128 =? 0); [apply Hnext; rewrite ?nlen_cons, ?nlen_nil; lia|].
  destruct (N.land c0 224 =? 192).
  { destruct (n <=? i + 1) eqn:E1; [assumption|].
    destruct (rd_some b (i + 1)) as [c1 ->]; [lia|].
    apply Hnext; [lia..|]. apply emit_length. }
  destruct (N.land c0 240 =? 224).
  { destruct (n <=? i + 2) eqn:E1; [assumption|].
    destruct (rd_some b (i + 1)) as [c1 ->]; [lia|].
    destruct (rd_some b (i + 2)) as [c2 ->]; [lia|].
    apply Hnext; [lia..|]. match goal with |- nlen (emit ?w) <= _ => pose proof (emit_length w) end. lia. }
  destruct (N.land c0 248 =? 240).
  { destruct (n <=? i + 3) eqn:E1; [assumption|].
    destruct (rd_some b (i + 1)) as [c1 ->]; [lia|].
    destruct (rd_some b (i + 2)) as [c2 ->]; [lia|].
    destruct (rd_some b (i + 3)) as [c3 ->]; [lia|].
    apply Hnext; [lia..|]. match goal with |- nlen (emit ?w) <= _ => pose proof (emit_length w) end. lia. }
  apply Hnext; rewrite ?nlen_cons, ?nlen_nil; lia.
Qed.

Lemma utf8_to_tx_safe b n : n <= nlen b ->
  exists out, utf8_to_tx b n = Some out /\ nlen out <= n.
Proof.
  intros H. unfold utf8_to_tx.
  destruct (utf8_loop_safe (S (N.to_nat n)) b n 0) as (j & out & E & _ & _ & Hj & Hl); [lia..|].
  rewrite E. eexists. split; [reflexivity|]. rewrite nlen_app. unfold nlen at 2. rewrite repeat_length. lia.
Qed.

Lemma rd_app_l b t i : i < nlen b -> rd (b ++ t) i = rd b i.
Proof. intros H. unfold rd. apply nth_error_app1. unfold nlen in H. lia. Qed.

Lemma utf8_loop_app : forall fuel b t i, utf8_loop fuel (b ++ t) (nlen b) i = utf8_loop fuel b (nlen b) i.
Proof.
  induction fuel as [|fuel IH]; intros b t i; [reflexivity|].
  cbn [utf8_loop]. destruct (nlen b <=? i) eqn:E; [reflexivity|].
  rewrite (rd_app_l b t i) by lia. destruct (rd b i) as [c0|]; [|reflexivity].
  cbv zeta. rewrite !IH.
  destruct (N.land c0 128 =? 0); [reflexivity|].
  destruct (N.land c0 224 =? 192).
  { destruct (nlen b <=? i + 1) eqn:E1; [reflexivity|]. rewrite rd_app_l by lia. reflexivity. }
  destruct (N.land c0 240 =? 224).
  { destruct (nlen b <=? i + 2) eqn:E1; [reflexivity|]. rewrite !rd_app_l by lia. reflexivity. }
  destruct (N.land c0 248 =? 240).
  { destruct (nlen b <=? i + 3) eqn:E1; [reflexivity|]. rewrite !rd_app_l by lia. reflexivity. }
  reflexivity.
Qed.

(** ** The UTF-8 decoder on well-formed input *)
Lemma rd_mid p c r : rd (p ++ c :: r) (nlen p) = Some c.
Proof.
  unfold rd, nlen. rewrite Nat2N.id, nth_error_app2 by lia. now rewrite Nat.sub_diag.
Qed.
Lemma rd_mid_k p r k : rd (p ++ r) (nlen p + k) = rd r k.
Proof.
  unfold rd, nlen. rewrite nth_error_app2 by lia. f_equal. lia.
Qed.

Lemma utf8_loop_enc : forall cs fuel p, Forall scalar cs ->
  (length cs < fuel)%nat ->
  utf8_loop fuel (p ++ enc8 cs) (nlen (p ++ enc8 cs)) (nlen p)
    = Some (nlen (p ++ enc8 cs), enc16 cs).
Proof.
  induction cs as [|c cs IH]; intros fuel p F L.
  { destruct fuel as [|fuel]; [cbn in L; lia|]. cbn [utf8_loop enc8 flat_map].
    rewrite app_nil_r. rewrite N.leb_refl. reflexivity. }
  inversion_clear F as [|? ? Hs F']. cbn [length] in L.
  destruct fuel as [|fuel]; [lia|]. cbn [utf8_loop].
  assert (Hnext : utf8_loop fuel (p ++ enc8 (c :: cs)) (nlen (p ++ enc8 (c :: cs))) (nlen p + nlen (enc8_1 c))
                  = Some (nlen (p ++ enc8 (c :: cs)), enc16 cs)).
  { rewrite enc8_cons, app_assoc, <- nlen_app. apply IH; [assumption|lia]. }
  set (b := p ++ enc8 (c :: cs)) in *.
  assert (Hlen : nlen b = nlen p + nlen (enc8_1 c) + nlen (enc8 cs)).
  { unfold b. rewrite enc8_cons, !nlen_app. lia. }
  rewrite enc8_1_length in Hlen, Hnext.
  assert (R0 : forall k, rd b (nlen p + k) = rd (enc8_1 c ++ enc8 cs) k).
  { intros k. unfold b. rewrite rd_mid_k. now rewrite enc8_cons. }
  pose proof (R0 0) as R00. rewrite N.add_0_r in R00. rewrite R00. rewrite !R0.
  unfold scalar in Hs. unfold enc8_1 in *.
  destruct (c <? 128) eqn:E1.
  { replace (nlen b <=? nlen p) with false by lia. cbn [app rd nth_error]. change (rd (c :: enc8 cs) 0) with (Some c).
    cbv iota. rewrite lead1 by lia. rewrite E1. cbv iota. rewrite Hnext. rewrite enc16_cons.
    unfold enc16_1. replace (c <? 65536) with true by lia. reflexivity. }
  destruct (c <? 2048) eqn:E2.
  { replace (nlen b <=? nlen p) with false by lia. cbn [app].
    change (rd (192 + c / 64 :: 128 + c mod 64 :: enc8 cs) 0) with (Some (192 + c / 64)).
    change (rd (192 + c / 64 :: 128 + c mod 64 :: enc8 cs) 1) with (Some (128 + c mod 64)).
    cbv iota. rewrite lead1, lead2 by lia.
    replace (192 + c / 64 <? 128) with false by lia.
    replace ((192 <=? 192 + c / 64) && (192 + c / 64 <? 224)) with true by lia.
    replace (nlen b <=? nlen p + 1) with false by lia. rewrite Hnext.
    rewrite land31, land63, N.shiftl_mul_pow2. change (2 ^ 6) with 64.
    replace ((192 + c / 64) mod 32 * 64 + (128 + c mod 64) mod 64) with c by lia.
    rewrite emit_enc by lia. reflexivity. }
  destruct (c <? 65536) eqn:E3.
  { replace (nlen b <=? nlen p) with false by lia. cbn [app].
    match goal with |- context [rd (?x :: ?y :: ?z :: ?r) 0] =>
      change (rd (x :: y :: z :: r) 0) with (Some x);
      change (rd (x :: y :: z :: r) 1) with (Some y);
      change (rd (x :: y :: z :: r) 2) with (Some z) end.
    cbv iota. rewrite lead1, lead2, lead3 by lia.
    replace (224 + c / 4096 <? 128) with false by lia.
    replace ((192 <=? 224 + c / 4096) && (224 + c / 4096 <? 224)) with false by lia.
    replace ((224 <=? 224 + c / 4096) && (224 + c / 4096 <? 240)) with true by lia.
    replace (nlen b <=? nlen p + 2) with false by lia. rewrite Hnext.
    rewrite land15, !land63, !N.shiftl_mul_pow2. change (2 ^ 6) with 64. change (2 ^ 12) with 4096.
    replace ((224 + c / 4096) mod 16 * 4096 + (128 + (c / 64) mod 64) mod 64 * 64 + (128 + c mod 64) mod 64) with c by lia.
    rewrite emit_enc by lia. reflexivity. }
  replace (nlen b <=? nlen p) with false by lia. cbn [app].
  match goal with |- context [rd (?x :: ?y :: ?z :: ?w :: ?r) 0] =>
    change (rd (x :: y :: z :: w :: r) 0) with (Some x);
    change (rd (x :: y :: z :: w :: r) 1) with (Some y);
    change (rd (x :: y :: z :: w :: r) 2) with (Some z);
    change (rd (x :: y :: z :: w :: r) 3) with (Some w) end.
  cbv iota. rewrite lead1, lead2, lead3, lead4 by lia.
  replace (240 + c / 262144 <? 128) with false by lia.
  replace ((192 <=? 240 + c / 262144) && (240 + c / 262144 <? 224)) with false by lia.
  replace ((224 <=? 240 + c / 262144) && (240 + c / 262144 <? 240)) with false by lia.
  replace ((240 <=? 240 + c / 262144) && (240 + c / 262144 <? 248)) with true by lia.
  replace (nlen b <=? nlen p + 3) with false by lia. rewrite Hnext.
  rewrite land7, !land63, !N.shiftl_mul_pow2. change (2 ^ 6) with 64. change (2 ^ 12) with 4096. change (2 ^ 18) with 262144.
  replace ((240 + c / 262144) mod 8 * 262144 + (128 + (c / 4096) mod 64) mod 64 * 4096
           + (128 + (c / 64) mod 64) mod 64 * 64 + (128 + c mod 64) mod 64) with c by lia.
  rewrite emit_enc by lia. reflexivity.
Qed.

Lemma enc8_length_ge cs : N.of_nat (length cs) <= nlen (enc8 cs).
Proof.
  induction cs as [|c cs IH]; [cbn; lia|]. rewrite enc8_cons, nlen_app, enc8_1_length. cbn [length].
  repeat destruct (c <? _); lia.
Qed.

Lemma utf8_to_tx_enc cs : Forall scalar cs -> utf8_to_tx (enc8 cs) (nlen (enc8 cs)) = Some (enc16 cs).
Proof.
  intros F. unfold utf8_to_tx. pose proof (enc8_length_ge cs).
  pose proof (utf8_loop_enc cs (S (N.to_nat (nlen (enc8 cs)))) [] F ltac:(lia)) as E. cbn [app] in E.
  change (nlen (@nil N)) with 0 in E. rewrite E. rewrite N.sub_diag. cbn [repeat N.to_nat]. now rewrite app_nil_r.
Qed.

(** ** The strict library decoder *)
Lemma dec8_1_enc c r : scalar c -> dec8_1 (enc8_1 c ++ r) = Some (c, r).
Proof.
  intros Hs. unfold scalar in Hs. unfold enc8_1, dec8_1, cont.
  destruct (c <? 128) eqn:E1; cbn [app]; [rewrite E1; reflexivity|].
  destruct (c <? 2048) eqn:E2; cbn [app].
  { replace (192 + c / 64 <? 128) with false by lia.
    replace (_ && (192 + c / 64 <? 224)) with true by lia.
    replace (_ && _) with true by lia. do 2 f_equal. lia. }
  destruct (c <? 65536) eqn:E3; cbn [app].
  { replace (224 + c / 4096 <? 128) with false by lia.
    replace (_ && (224 + c / 4096 <? 224)) with false by lia.
    replace (_ && (224 + c / 4096 <? 240)) with true by lia.
    replace (_ && _ && _ && _) with true by lia. do 2 f_equal. lia. }
  replace (240 + c / 262144 <? 128) with false by lia.
  replace (_ && (240 + c / 262144 <? 224)) with false by lia.
  replace (_ && (240 + c / 262144 <? 240)) with false by lia.
  replace (_ && (240 + c / 262144 <? 245)) with true by lia.
  replace (_ && _ && _ && _ && _) with true by lia. do 2 f_equal. lia.
Qed.

Lemma dec8_1_inv b c r : dec8_1 b = Some (c, r) -> scalar c /\ b = enc8_1 c ++ r.
Proof.
  unfold dec8_1, cont. destruct b as [|b0 b]; [discriminate|].
  destruct (b0 <? 128) eqn:E1.
  { intros [= <- <-]. unfold scalar, enc8_1. rewrite E1. split; [lia|reflexivity]. }
  destruct b as [|b1 b]; [discriminate|].
  destruct ((194 <=? b0) && (b0 <? 224)) eqn:E2.
  { destruct ((128 <=? b1) && (b1 <? 192)) eqn:E3; [|discriminate]. intros [= <- <-].
    unfold scalar, enc8_1. replace (_ <? 128) with false by lia. replace (_ <? 2048) with true by lia.
    split; [lia|]. cbn [app]. f_equal; [lia|]. f_equal. lia. }
  destruct b as [|b2 b]; [discriminate|].
  destruct ((224 <=? b0) && (b0 <? 240)) eqn:E3.
  { destruct (_ && _ && _ && _) eqn:E4; [|discriminate]. intros [= <- <-].
    assert (H : (128 <= b1 < 192) /\ (128 <= b2 < 192) /\ (b0 = 224 -> 160 <= b1) /\ (b0 = 237 -> b1 < 160)) by lia.
    clear E4. set (w := (b0 - 224) * 4096 + (b1 - 128) * 64 + (b2 - 128)).
    assert (Hw : w = (b0 - 224) * 4096 + (b1 - 128) * 64 + (b2 - 128)) by reflexivity. clearbody w.
    assert (2048 <= w < 65536) by (destruct (N.eq_dec b0 224); lia).
    unfold scalar, enc8_1. replace (w <? 128) with false by lia. replace (w <? 2048) with false by lia.
    replace (w <? 65536) with true by lia. split.
    { destruct (N.eq_dec b0 237); [lia|]. destruct (N.lt_ge_cases b0 237); lia. }
    cbn [app]. f_equal; [lia|]. f_equal; [|f_equal]; lia. }
  destruct b as [|b3 b]; [discriminate|].
  destruct ((240 <=? b0) && (b0 <? 245)) eqn:E4; [|discriminate].
  destruct (_ && _ && _ && _ && _) eqn:E5; [|discriminate]. intros [= <- <-].
  assert (H : (128 <= b1 < 192) /\ (128 <= b2 < 192) /\ (128 <= b3 < 192) /\ (b0 = 240 -> 144 <= b1) /\ (b0 = 244 -> b1 < 144)) by lia.
  clear E5. set (w := (b0 - 240) * 262144 + (b1 - 128) * 4096 + (b2 - 128) * 64 + (b3 - 128)).
  assert (Hw : w = (b0 - 240) * 262144 + (b1 - 128) * 4096 + (b2 - 128) * 64 + (b3 - 128)) by reflexivity. clearbody w.
  assert (65536 <= w < 1114112).
  { destruct (N.eq_dec b0 240); [lia|]. destruct (N.eq_dec b0 244); lia. }
  unfold scalar, enc8_1. replace (w <? 128) with false by lia. replace (w <? 2048) with false by lia.
  replace (w <? 65536) with false by lia. split; [lia|].
  assert (K0 : w mod 64 = b3 - 128) by lia.
  assert (K1 : w / 64 = (b0 - 240) * 4096 + (b1 - 128) * 64 + (b2 - 128)) by lia.
  assert (K2 : w / 4096 = (b0 - 240) * 64 + (b1 - 128)).
  { change 4096 with (64 * 64). rewrite <- N.div_div, K1 by lia. lia. }
  assert (K3 : w / 262144 = b0 - 240).
  { change 262144 with (4096 * 64). rewrite <- N.div_div, K2 by lia. lia. }
  cbn [app]. rewrite K0, K1, K2, K3. f_equal; [lia|]. f_equal; [|f_equal; [|f_equal]]; lia.
Qed.

Lemma dec8_enc : forall cs fuel, Forall scalar cs -> (length cs <= fuel)%nat -> dec8 fuel (enc8 cs) = Some cs.
Proof.
  induction cs as [|c cs IH]; intros fuel F L; [now destruct fuel|].
  inversion_clear F as [|? ? Hs F']. cbn [length] in L. destruct fuel as [|fuel]; [lia|].
  rewrite enc8_cons. cbn [dec8]. rewrite dec8_1_enc by assumption.
  destruct (enc8_1 c ++ enc8 cs) eqn:E.
  { exfalso. pose proof (enc8_1_length c) as H. apply app_eq_nil in E as [E _]. rewrite E, nlen_nil in H.
    repeat destruct (c <? _); lia. }
  rewrite IH; [reflexivity|assumption|lia].
Qed.

Lemma dec8_inv : forall fuel b cs, dec8 fuel b = Some cs -> Forall scalar cs /\ b = enc8 cs.
Proof.
  induction fuel as [|fuel IH]; intros b cs E.
  { destruct b; [|discriminate]. injection E as <-. split; [constructor|reflexivity]. }
  destruct b as [|b0 b]; [injection E as <-; split; [constructor|reflexivity]|].
  cbn [dec8] in E. destruct (dec8_1 (b0 :: b)) as [[c r]|] eqn:E1; [|discriminate].
  destruct (dec8 fuel r) as [cs'|] eqn:E2; [|discriminate]. injection E as <-.
  apply dec8_1_inv in E1 as [Hs ->]. apply IH in E2 as [F ->]. split; [now constructor|reflexivity].
Qed.

Lemma flat_lib16 cs : flat_map lib16 cs = enc16 cs.
Proof. unfold enc16. apply flat_map_ext. intros. apply lib16_enc. Qed.
Lemma flat_lib8 cs : flat_map lib8 cs = enc8 cs.
Proof. unfold enc8. apply flat_map_ext. intros. apply lib8_enc. Qed.

Lemma from_bytes_iff b l : from_bytes b = Some l <-> exists cs, Forall scalar cs /\ b = enc8 cs /\ l = enc16 cs.
Proof.
  unfold from_bytes. split.
  - destruct (dec8 (length b) b) as [cs|] eqn:E; [|discriminate]. intros [= <-]. exists cs.
    apply dec8_inv in E as [F E]. split; [assumption|]. split; [assumption|]. apply flat_lib16.
  - intros (cs & F & -> & ->). rewrite dec8_enc; [now rewrite flat_lib16|assumption|].
    pose proof (enc8_length_ge cs). unfold nlen in *. lia.
Qed.

Lemma dec16_enc cs : Forall scalar cs -> dec16 (enc16 cs) = Some cs.
Proof.
  induction cs as [|c cs IH]; intros F; [reflexivity|]. inversion_clear F as [|? ? Hs F'].
  rewrite enc16_cons. unfold enc16_1, scalar in *. destruct (c <? 65536) eqn:E; cbn [app dec16].
  - replace (_ || _) with true by lia. now rewrite IH.
  - replace (_ || _) with false by lia. replace (_ <? 56320) with true by lia.
    replace (_ && _) with true by lia. rewrite IH by assumption. do 2 f_equal. lia.
Qed.

Lemma some_inj {A} (a b : A) : Some a = Some b -> b = a.
Proof. now intros [= ->]. Qed.

Lemma dec16_inv_len : forall n l cs, (length l <= n)%nat -> Forall (fun u => u < 65536) l ->
  dec16 l = Some cs -> Forall scalar cs /\ l = enc16 cs.
Proof.
  induction n as [|n IH]; intros l cs L F E.
  { destruct l; [|cbn in L; lia]. injection E as <-. split; [constructor|reflexivity]. }
  destruct l as [|u r]; [injection E as <-; split; [constructor|reflexivity]|].
  inversion_clear F as [|? ? Hu F']. cbn [length] in L. cbn [dec16] in E.
  destruct ((u <? 55296) || (57344 <=? u)) eqn:E1.
  { destruct (dec16 r) as [cs'|] eqn:E2; [|discriminate]. injection E as <-.
    apply IH in E2 as [Fs ->]; [|lia|assumption]. split; [constructor; [unfold scalar; lia|assumption]|].
    rewrite enc16_cons. unfold enc16_1. replace (u <? 65536) with true by lia. reflexivity. }
  destruct (u <? 56320) eqn:E2; [|discriminate]. destruct r as [|v r]; [discriminate|].
  destruct ((56320 <=? v) && (v <? 57344)) eqn:E3; [|discriminate].
  destruct (dec16 r) as [cs'|] eqn:E4; [|discriminate]. apply some_inj in E. subst cs.
  inversion_clear F' as [|? ? Hv F'']. cbn [length] in L.
  apply IH in E4 as [Fs ->]; [|lia|assumption].
  split; [constructor; [unfold scalar; lia|assumption]|].
  rewrite enc16_cons. unfold enc16_1. replace (_ <? 65536) with false by lia. cbn [app].
  f_equal; [lia|]. f_equal. lia.
Qed.
Lemma dec16_inv l cs : Forall (fun u => u < 65536) l -> dec16 l = Some cs -> Forall scalar cs /\ l = enc16 cs.
Proof. apply (dec16_inv_len (length l)). lia. Qed.

Lemma to_bytes_iff l b : Forall (fun u => u < 65536) l ->
  (to_bytes l = Some b <-> exists cs, Forall scalar cs /\ l = enc16 cs /\ b = enc8 cs).
Proof.
  intros Fu. unfold to_bytes. split.
  - destruct (dec16 l) as [cs|] eqn:E; [|discriminate]. intros [= <-]. exists cs.
    apply dec16_inv in E as [F ->]; [|assumption]. split; [assumption|]. split; [reflexivity|]. apply flat_lib8.
  - intros (cs & F & -> & ->). rewrite dec16_enc by assumption. now rewrite flat_lib8.
Qed.

Lemma enc16_units cs : Forall scalar cs -> Forall (fun u => u < 65536) (enc16 cs).
Proof.
  intros F. induction F as [|c cs Hs F IH]; [constructor|]. rewrite enc16_cons. apply Forall_app. split; [|assumption].
  unfold enc16_1, scalar in *. destruct (c <? 65536) eqn:E; repeat (apply Forall_cons; [lia|]); apply Forall_nil.
Qed.
Lemma enc8_bytes cs : Forall scalar cs -> bytes_ok (enc8 cs).
Proof.
  intros F. induction F as [|c cs Hs F IH]; [constructor|]. rewrite enc8_cons. apply Forall_app. split; [|assumption].
  unfold enc8_1, scalar, byte_ok in *. repeat dif; repeat (apply Forall_cons; [lia|]); apply Forall_nil.
Qed.

Lemma enc8_enc16_length cs : nlen (enc8 cs) <= 3 * nlen (enc16 cs).
Proof.
  induction cs as [|c cs IH]; [cbn; lia|].
  rewrite enc8_cons, enc16_cons, !nlen_app, enc8_1_length, enc16_1_length. repeat dif; lia.
Qed.
Lemma enc16_enc8_length cs : nlen (enc16 cs) <= nlen (enc8 cs).
Proof.
  induction cs as [|c cs IH]; [cbn; lia|].
  rewrite enc8_cons, enc16_cons, !nlen_app, enc8_1_length, enc16_1_length. repeat dif; lia.
Qed.

(** ** Zero bytes *)
Lemma upto_nul_id b : ~ In 0 b -> upto_nul b = b.
Proof.
  induction b as [|c b IH]; intros H; [reflexivity|]. cbn [upto_nul].
  replace (c =? 0) with false. { f_equal. apply IH. intros C. apply H. now right. }
  symmetry. apply N.eqb_neq. intros ->. apply H. now left.
Qed.
Lemma upto_nul_app_nul b t : ~ In 0 b -> upto_nul (b ++ 0 :: t) = b.
Proof.
  induction b as [|c b IH]; intros H; [reflexivity|]. cbn [upto_nul app].
  replace (c =? 0) with false. { f_equal. apply IH. intros C. apply H. now right. }
  symmetry. apply N.eqb_neq. intros ->. apply H. now left.
Qed.
Lemma enc8_no_nul cs : Forall (fun c => scalar c /\ c <> 0) cs -> ~ In 0 (enc8 cs).
Proof.
  intros F. induction F as [|c cs [Hs Hz] F IH]; [intros []|]. rewrite enc8_cons, in_app_iff. intros [H|H]; [|tauto].
  unfold enc8_1 in H. repeat destruct (c <? _); cbn [In] in H; lia.
Qed.
Lemma upto_nul_no_nul b : ~ In 0 (upto_nul b).
Proof.
  induction b as [|c b IH]; [intros []|]. cbn [upto_nul]. destruct (c =? 0) eqn:E; [intros []|].
  intros [H|H]; [subst; discriminate|tauto].
Qed.
Lemma enc16_no_nul cs : ~ In 0 cs -> ~ In 0 (enc16 cs).
Proof.
  induction cs as [|c cs IH]; intros H; [intros []|]. rewrite enc16_cons, in_app_iff. intros [K|K].
  - unfold enc16_1 in K. destruct (c <? 65536); cbn [In] in K; [|lia]. apply H. left. lia.
  - apply IH; [|assumption]. intros C. apply H. now right.
Qed.

(** Plain ASCII text: bytes and units coincide. *)
Lemma enc8_ascii cs : Forall (fun c => c < 128) cs -> enc8 cs = cs.
Proof.
  intros F. induction F as [|c cs H F IH]; [reflexivity|]. rewrite enc8_cons, IH. unfold enc8_1.
  replace (c <? 128) with true by lia. reflexivity.
Qed.
Lemma enc16_ascii cs : Forall (fun c => c < 128) cs -> enc16 cs = cs.
Proof.
  intros F. induction F as [|c cs H F IH]; [reflexivity|]. rewrite enc16_cons, IH. unfold enc16_1.
  replace (c <? 65536) with true by lia. reflexivity.
Qed.
Lemma from_bytes_ascii b : Forall (fun c => c < 128) b -> from_bytes b = Some b.
Proof.
  intros F. apply from_bytes_iff. exists b. rewrite enc8_ascii, enc16_ascii by assumption.
  split; [|split; reflexivity]. revert F. apply Forall_impl. unfold scalar. lia.
Qed.
Lemma to_bytes_ascii l : Forall (fun c => c < 128) l -> to_bytes l = Some l.
Proof.
  intros F. apply to_bytes_iff. { revert F. apply Forall_impl. lia. }
  exists l. rewrite enc8_ascii, enc16_ascii by assumption.
  split; [|split; reflexivity]. revert F. apply Forall_impl. unfold scalar. lia.
Qed.
