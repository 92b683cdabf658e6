(** Lemmas for the SHA-256 properties. *)
From Coq Require Import List NArith ZArith Lia Bool.
From Coq Require Import ZifyN ZifyNat ZifyBool.
From Verif Require Import Bytes BytesProofs ShaModel ShaSpec.
Import ListNotations.
Open Scope N_scope.
Ltac Zify.zify_post_hook ::= Z.div_mod_to_equations.

Lemma consts_ok : consts = K.
Proof. vm_compute. reflexivity. Qed.
Lemma init_ok : init_hash = H0.
Proof. vm_compute. reflexivity. Qed.

(** ** Words *)
Definition word (x : N) : Prop := x < 4294967296.

Lemma add32_plus a b : add32 a b = plus a b.
Proof. reflexivity. Qed.
Lemma plus_word a b : word (plus a b).
Proof. unfold word, plus. change (2 ^ 32) with 4294967296. lia. Qed.
Lemma plus_assoc a b c : plus (plus a b) c = plus a (plus b c).
Proof.
  unfold plus. rewrite N.add_mod_idemp_l, N.add_mod_idemp_r by discriminate. f_equal. lia.
Qed.
Lemma plus_comm a b : plus a b = plus b a.
Proof. unfold plus. f_equal. lia. Qed.
Lemma rotate_ROTR a c : rotate a c = ROTR c a.
Proof. unfold rotate, ROTR. rewrite N.shiftr_div_pow2, N.shiftl_mul_pow2. reflexivity. Qed.

Lemma land_add_0 a b n : a < 2 ^ n -> N.land a (b * 2 ^ n) = 0.
Proof.
  intros H. apply N.bits_inj. intros i. rewrite N.bits_0, N.land_spec.
  destruct (N.ltb_spec i n).
  - rewrite N.mul_pow2_bits_low by assumption. apply andb_false_r.
  - replace (N.testbit a i) with false; [reflexivity|]. symmetry.
    destruct (N.eq_dec a 0) as [->|Ha]; [apply N.bits_0|].
    apply N.bits_above_log2. apply N.log2_lt_pow2; [lia|].
    apply N.lt_le_trans with (2 ^ n); [exact H|]. apply N.pow_le_mono_r; [discriminate|lia].
Qed.
Lemma lor_add a b n : a < 2 ^ n -> N.lor a (b * 2 ^ n) = a + b * 2 ^ n.
Proof.
  intros H. pose proof (land_add_0 a b n H) as E.
  rewrite N.add_nocarry_lxor by exact E. symmetry. apply N.lxor_lor. exact E.
Qed.

Lemma not32_complement x : word x -> not32 x = complement x.
Proof.
  intros H. unfold not32, complement. change (2 ^ 32 - 1) with 4294967295.
  change 4294967295 with (N.ones 32). unfold word in H.
  destruct (N.eq_dec x 0) as [->|Hx]; [reflexivity|].
  assert (L : N.log2 x < 32) by (apply N.log2_lt_pow2; [lia|exact H]).
  pose proof (N.lnot_sub_low x 32 L) as E. unfold N.lnot in E. rewrite E. reflexivity.
Qed.

Lemma xor3_eq a b c : N.lxor (N.lxor a b) c = xor3 a b c.
Proof. unfold xor3. apply N.lxor_assoc. Qed.

Lemma f1_eq e f g : word e -> f1 e f g = plus (Sigma1 e) (Ch e f g).
Proof.
  intros H. unfold f1, Sigma1, Ch. rewrite !rotate_ROTR, xor3_eq, not32_complement by assumption. reflexivity.
Qed.
Lemma maj_eq a b c : N.lor (N.land (N.lor a b) c) (N.land a b) = Maj a b c.
Proof.
  unfold Maj, xor3. apply N.bits_inj. intros i.
  rewrite !N.lxor_spec, !N.lor_spec, !N.land_spec, !N.lor_spec.
  destruct (N.testbit a i), (N.testbit b i), (N.testbit c i); reflexivity.
Qed.
Lemma f2_eq a b c : f2 a b c = plus (Sigma0 a) (Maj a b c).
Proof. unfold f2, Sigma0. rewrite !rotate_ROTR, xor3_eq, maj_eq. reflexivity. Qed.

(** ** Rounds *)
Definition vars_ok (s : vars) : Prop :=
  let '(a, b, c, d, e, f, g, h) := s in
  word a /\ word b /\ word c /\ word d /\ word e /\ word f /\ word g /\ word h.

Lemma step_model k w a b c d e f g h : word e ->
  step (a, b, c, d, e, f, g, h) (k, w) =
  let x := add32 (add32 (add32 h (f1 e f g)) k) w in
  let y := f2 a b c in (add32 x y, a, b, c, add32 d x, e, f, g).
Proof.
  intros H. unfold step. cbn [fst snd]. rewrite f1_eq by assumption. rewrite f2_eq.
  cbv zeta. change add32 with plus. rewrite !plus_assoc. reflexivity.
Qed.
Lemma step_ok s k w : vars_ok s -> vars_ok (step s (k, w)).
Proof.
  destruct s as [[[[[[[a b] c] d] e] f] g] h]. intros (?&?&?&?&?&?&?&?). unfold step. cbn [fst snd].
  repeat split; try assumption; apply plus_word.
Qed.
Lemma steps_ok kws : forall s, vars_ok s -> vars_ok (fold_left step kws s).
Proof.
  induction kws as [|[k w] kws IH]; intros s H; cbn [fold_left]; [exact H|]. apply IH, step_ok, H.
Qed.

Lemma eight_steps k w s : vars_ok s ->
  eight k w s = fold_left step (map (fun j => (k j, w j)) (seq 0 8)) s.
Proof.
  intros H. destruct s as [[[[[[[a b] c] d] e] f] g] h]. destruct H as (Ha&Hb&Hc&Hd&He&Hf&Hg&Hh).
  cbn [seq map fold_left]. unfold eight.
  repeat (rewrite step_model by first [assumption|apply plus_word]; cbv zeta).
  reflexivity.
Qed.

Lemma extend_app n : forall ws, exists t, extend n ws = ws ++ t /\ length t = n.
Proof.
  induction n as [|n IH]; intros ws; cbn [extend].
  - exists []. rewrite app_nil_r. auto.
  - destruct (IH (ws ++ [next_word ws])) as (t & E & L). exists (next_word ws :: t).
    rewrite E, <- app_assoc. split; [reflexivity|]. cbn [length]. lia.
Qed.
Lemma next_word_eq ws :
  next_word ws = let W k := nth (length ws - k) ws 0 in
   plus (plus (plus (sigma1 (W 2%nat)) (W 7%nat)) (sigma0 (W 15%nat))) (W 16%nat).
Proof.
  unfold next_word. cbv zeta. rewrite !rotate_ROTR, !xor3_eq, !N.shiftr_div_pow2.
  fold (SHR 3 (nth (length ws - 15) ws 0)). fold (SHR 10 (nth (length ws - 2) ws 0)).
  fold (sigma0 (nth (length ws - 15) ws 0)). fold (sigma1 (nth (length ws - 2) ws 0)).
  change add32 with plus.
  rewrite (plus_comm (plus _ (nth (length ws - 7) ws 0)) (sigma1 _)).
  rewrite (plus_comm (plus (nth _ _ _) (sigma0 _)) (nth (length ws - 7) ws 0)).
  rewrite (plus_comm (nth (length ws - 16) ws 0)). rewrite !plus_assoc. reflexivity.
Qed.
Lemma extend_schedule n : forall ws, extend n ws = schedule n ws.
Proof.
  induction n as [|n IH]; intros ws; cbn [extend schedule]; [reflexivity|].
  rewrite IH, next_word_eq. reflexivity.
Qed.
Lemma extend_add n m ws : extend m (extend n ws) = extend (n + m) ws.
Proof. revert ws. induction n as [|n IH]; intros ws; cbn [extend plus Nat.add]; [reflexivity|apply IH]. Qed.

(** All eight blocks of lines read the final words. *)
Lemma eight_at_steps i ws t s : vars_ok s -> (i + 8 <= length ws)%nat ->
  eight_at i ws s = fold_left step (map (fun j => (nth j consts 0, nth j (ws ++ t) 0)) (seq i 8)) s.
Proof.
  intros Hs Hl. unfold eight_at. rewrite eight_steps by exact Hs. cbn [seq map].
  rewrite !app_nth1 by lia.
  replace (i + 0)%nat with i by lia.
  replace (i + 1)%nat with (S i) by lia. replace (i + 2)%nat with (S (S i)) by lia.
  replace (i + 3)%nat with (S (S (S i))) by lia. replace (i + 4)%nat with (S (S (S (S i)))) by lia.
  replace (i + 5)%nat with (S (S (S (S (S i))))) by lia. replace (i + 6)%nat with (S (S (S (S (S (S i)))))) by lia.
  replace (i + 7)%nat with (S (S (S (S (S (S (S i))))))) by lia. reflexivity.
Qed.

Lemma combine_nth_seq (a b : list N) n : length a = n -> length b = n ->
  combine a b = map (fun j => (nth j a 0, nth j b 0)) (seq 0 n).
Proof.
  revert a b. induction n as [|n IH]; intros [|x a] [|y b] Ha Hb; try discriminate; [reflexivity|].
  cbn [combine seq map]. apply f_equal2; [reflexivity|]. rewrite (IH a b) by (cbn in *; lia).
  rewrite <- seq_shift, map_map. reflexivity.
Qed.

Lemma swap_bytes b0 b1 b2 b3 : b0 < 256 -> b1 < 256 -> b2 < 256 -> b3 < 256 ->
  swap (le_val [b0; b1; b2; b3]) = le_val [b3; b2; b1; b0].
Proof.
  intros H0 H1 H2 H3. cbn [le_val].
  set (x := b0 + 256 * (b1 + 256 * (b2 + 256 * (b3 + 256 * 0)))).
  unfold swap.
  assert (M : forall a m n, N.land a (N.shiftl m n) = N.shiftl (N.land (N.shiftr a n) m) n).
  { intros a m n. apply N.bits_inj. intros i. rewrite N.land_spec.
    destruct (N.ltb_spec i n).
    - rewrite !N.shiftl_spec_low by assumption. apply andb_false_r.
    - rewrite !N.shiftl_spec_high' by assumption. rewrite N.land_spec, N.shiftr_spec'.
      replace (i - n + n) with i by lia. reflexivity. }
  change 65280 with (N.shiftl (N.ones 8) 8). change 16711680 with (N.shiftl (N.ones 8) 16).
  rewrite !M. rewrite N.shiftr_shiftr.
  rewrite (N.shiftr_shiftl_r x 8 16) by lia. change (16 - 8) with 8. change (8 + 8) with 16.
  rewrite !N.land_ones. rewrite !N.shiftr_div_pow2, !N.shiftl_mul_pow2.
  change (2 ^ 8) with 256. change (2 ^ 16) with 65536. change (2 ^ 24) with 16777216.
  assert (E0 : x / 16777216 = b3) by (unfold x; lia).
  assert (E1 : (x / 65536) mod 256 = b2) by (unfold x; lia).
  assert (E2 : (x / 256) mod 256 = b1) by (unfold x; lia).
  assert (E3 : (x * 16777216) mod 4294967296 = b0 * 16777216) by (unfold x; lia).
  rewrite E0, E1, E2, E3.
  pose proof (lor_add b3 b2 8) as L1. change (2 ^ 8) with 256 in L1. rewrite L1 by lia.
  pose proof (lor_add (b3 + b2 * 256) b1 16) as L2. change (2 ^ 16) with 65536 in L2. rewrite L2 by lia.
  pose proof (lor_add (b3 + b2 * 256 + b1 * 65536) b0 24) as L3. change (2 ^ 24) with 16777216 in L3. rewrite L3 by lia.
  lia.
Qed.

Lemma load_words_eq n : forall data, bytes_ok data -> (4 * n <= length data)%nat ->
  load_words n data = map be_val (chunks n 4 data).
Proof.
  induction n as [|n IH]; intros data Hb Hl; cbn [load_words chunks map]; [reflexivity|].
  destruct data as [|b0 [|b1 [|b2 [|b3 data]]]]; try (cbn in Hl; lia).
  apply f_equal2.
  - cbn [firstn]. unfold be_val. cbn [rev app].
    inversion_clear Hb as [|? ? H0 Hb1]. inversion_clear Hb1 as [|? ? H1 Hb2]. inversion_clear Hb2 as [|? ? H2 Hb3]. inversion_clear Hb3 as [|? ? H3 Hb4].
    apply swap_bytes; assumption.
  - cbn [skipn]. apply IH; [|cbn in Hl; lia].
    inversion_clear Hb as [|? ? H0 Hb1]. inversion_clear Hb1 as [|? ? H1 Hb2]. inversion_clear Hb2 as [|? ? H2 Hb3]. inversion_clear Hb3 as [|? ? H3 Hb4]. exact Hb4.
Qed.

Lemma chunks_length n k l : length (chunks n k l) = n.
Proof. revert l. induction n as [|n IH]; intros l; cbn [chunks length]; [reflexivity|]. f_equal. apply IH. Qed.
Lemma schedule_length n w : length (schedule n w) = (n + length w)%nat.
Proof. revert w. induction n as [|n IH]; intros w; cbn [schedule]; [reflexivity|]. rewrite IH, app_length. cbn [length]. lia. Qed.

Definition hash_ok (h : list N) : Prop := length h = 8%nat /\ Forall word h.

Lemma process_block_compress h data : hash_ok h -> bytes_ok data -> length data = 64%nat ->
  process_block h data = compress h data /\ hash_ok (compress h data).
Proof.
  intros [L F] Hb Hd.
  destruct h as [|a [|b [|c [|d [|e [|f [|g [|hh [|]]]]]]]]]; try discriminate L.
  assert (V : vars_ok (a, b, c, d, e, f, g, hh)).
  { repeat (match goal with H : Forall _ (_ :: _) |- _ => inversion_clear H end). repeat split; assumption. }
  set (W := block_words data).
  assert (EW : load_words 16 data = W) by (unfold W, block_words; apply load_words_eq; [exact Hb|lia]).
  assert (LW : length W = 16%nat) by (unfold W, block_words; rewrite map_length; apply chunks_length).
  unfold process_block. cbn [nth]. rewrite EW.
  set (s0 := (a, b, c, d, e, f, g, hh)) in *.
  destruct (extend_app 48 W) as (t & Et & Lt).
  assert (X : forall n, (n <= 48)%nat -> exists u, W ++ t = extend n W ++ u /\ length (extend n W) = (16 + n)%nat).
  { intros n Hn. destruct (extend_app (48 - n) (extend n W)) as (u & Eu & _). exists u.
    rewrite <- Et, <- Eu, extend_add. split; [f_equal; lia|]. rewrite extend_schedule, schedule_length. lia. }
  rewrite !extend_add. change (8 + 8)%nat with 16%nat. change (16 + 8)%nat with 24%nat.
  change (24 + 8)%nat with 32%nat. change (32 + 8)%nat with 40%nat. change (40 + 8)%nat with 48%nat.
  set (cc := fun j => (nth j consts 0, nth j (W ++ t) 0)).
  assert (R : forall n i s, (n <= 48)%nat -> (i <= 8 + n)%nat -> vars_ok s ->
     eight_at i (extend n W) s = fold_left step (map cc (seq i 8)) s).
  { intros n i s Hn Hi Hs. destruct (X n Hn) as (u & Eu & Lu). unfold cc. rewrite Eu.
    apply eight_at_steps; [exact Hs|lia]. }
  pose proof (R 0%nat) as R0. cbn [extend] in R0.
  rewrite (R0 0%nat s0) by first [lia|exact V].
  rewrite (R0 8%nat) by first [lia|apply steps_ok, V].
  rewrite (R 8%nat 16%nat) by first [lia|do 2 apply steps_ok; exact V].
  rewrite (R 16%nat 24%nat) by first [lia|do 3 apply steps_ok; exact V].
  rewrite (R 24%nat 32%nat) by first [lia|do 4 apply steps_ok; exact V].
  rewrite (R 32%nat 40%nat) by first [lia|do 5 apply steps_ok; exact V].
  rewrite (R 40%nat 48%nat) by first [lia|do 6 apply steps_ok; exact V].
  rewrite (R 48%nat 56%nat) by first [lia|do 7 apply steps_ok; exact V].
  rewrite <- !fold_left_app, <- !map_app. rewrite <- !seq_app.
  change (8 + (8 + (8 + (8 + (8 + (8 + (8 + 8)))))))%nat with 64%nat.
  unfold compress. fold W. rewrite <- extend_schedule, Et, <- consts_ok.
  rewrite (combine_nth_seq consts (W ++ t) 64) by (try reflexivity; rewrite app_length; lia).
  fold cc. fold s0.
  pose proof (steps_ok (map cc (seq 0 64)) s0 V) as VF.
  destruct (fold_left step (map cc (seq 0 64)) s0) as [[[[[[[a' b'] c'] d'] e'] f'] g'] h'].
  split.
  - change add32 with plus. rewrite (plus_comm a), (plus_comm b), (plus_comm c), (plus_comm d), (plus_comm e), (plus_comm f), (plus_comm g), (plus_comm hh). reflexivity.
  - split; [reflexivity|]. repeat constructor; apply plus_word.
Qed.

(** ** Buffers *)
Lemma put_ok l : forall i v, (i < length l)%nat ->
  put l i v = Some (firstn i l ++ v :: skipn (S i) l).
Proof.
  induction l as [|x l IH]; intros i v H; cbn [length] in H; [lia|].
  destruct i as [|i]; cbn [put firstn skipn app]; [reflexivity|].
  rewrite IH by lia. reflexivity.
Qed.

(** The first [n] bytes of a buffer are [d]. *)
Lemma put_next l d v : firstn (length d) l = d -> (length d < length l)%nat ->
  exists l', put l (length d) v = Some l' /\ length l' = length l /\ firstn (S (length d)) l' = d ++ [v] /\
    skipn (S (length d)) l' = skipn (S (length d)) l.
Proof.
  intros F L. rewrite put_ok by exact L. rewrite F. eexists. split; [reflexivity|].
  assert (E : forall r : list N, firstn (S (length d)) (d ++ v :: r) = d ++ [v]).
  { intros r. replace (d ++ v :: r) with ((d ++ [v]) ++ r) by (rewrite <- app_assoc; reflexivity).
    apply firstn_exact. rewrite app_length. cbn [length]. lia. }
  assert (E2 : forall r : list N, skipn (S (length d)) (d ++ v :: r) = r).
  { intros r. replace (d ++ v :: r) with ((d ++ [v]) ++ r) by (rewrite <- app_assoc; reflexivity).
    apply skipn_exact. rewrite app_length. cbn [length]. lia. }
  split; [|split; [apply E|apply E2]]. rewrite app_length. cbn [length]. rewrite skipn_length. lia.
Qed.

Lemma puts_ok new : forall l d, firstn (length d) l = d -> (length d + length new <= length l)%nat ->
  exists l', puts new l (length d) = Some l' /\ length l' = length l /\ firstn (length d + length new) l' = d ++ new.
Proof.
  induction new as [|v new IH]; intros l d F L; cbn [puts length] in *.
  - exists l. rewrite Nat.add_0_r, app_nil_r. auto.
  - destruct (put_next l d v F ltac:(lia)) as (l1 & E1 & L1 & F1 & _). rewrite E1. cbn [bind].
    destruct (IH l1 (d ++ [v])) as (l2 & E2 & L2 & F2).
    + rewrite app_length. cbn [length]. rewrite Nat.add_1_r. exact F1.
    + rewrite app_length. cbn [length]. lia.
    + rewrite app_length in E2, F2. cbn [length] in E2, F2. rewrite Nat.add_1_r in E2, F2.
      exists l2. split; [exact E2|]. split; [lia|].
      rewrite <- app_assoc in F2. replace (length d + S (length new))%nat with (S (length d) + length new)%nat by lia. exact F2.
Qed.
Lemma zeros_puts n : forall l i, zeros n l i = puts (repeat 0 n) l i.
Proof.
  induction n as [|n IH]; intros l i; cbn [zeros repeat puts]; [reflexivity|].
  destruct (put l i 0); cbn [bind]; [apply IH|reflexivity].
Qed.

Lemma keep_ok data : forall buf d, firstn (length d) buf = d -> (length d + length data <= length buf)%nat ->
  exists buf', keep data buf (nlen d) = Some (buf', nlen (d ++ data)) /\ length buf' = length buf /\
    firstn (length (d ++ data)) buf' = d ++ data.
Proof.
  induction data as [|v data IH]; intros buf d F L; cbn [keep length] in *.
  - exists buf. rewrite app_nil_r. auto.
  - unfold nlen at 1. rewrite Nat2N.id. destruct (put_next buf d v F ltac:(lia)) as (b1 & E1 & L1 & F1 & _).
    rewrite E1. cbn [bind].
    destruct (IH b1 (d ++ [v])) as (b2 & E2 & L2 & F2).
    + rewrite app_length. cbn [length]. rewrite Nat.add_1_r. exact F1.
    + rewrite app_length. cbn [length]. lia.
    + rewrite <- app_assoc in *. cbn [app] in *. exists b2.
      replace (nlen d + 1) with (nlen (d ++ [v])) by (rewrite nlen_app, nlen_cons, nlen_nil; lia).
      split; [exact E2|]. split; [lia|exact F2].
Qed.

Lemma fill_ok data : forall buf d, firstn (length d) buf = d -> length buf = 64%nat -> (length d <= 64)%nat ->
  let n := (64 - length d)%nat in
  exists buf', fill data buf (nlen d) = Some (buf', nlen (d ++ firstn n data), skipn n data) /\ length buf' = 64%nat /\
    firstn (length (d ++ firstn n data)) buf' = d ++ firstn n data.
Proof.
  induction data as [|v data IH]; intros buf d F L Ld n; cbn [fill].
  - exists buf. rewrite firstn_nil, skipn_nil, app_nil_r. auto.
  - destruct (N.ltb_spec (nlen d) 64) as [H|H].
    + unfold nlen at 1. rewrite Nat2N.id. unfold nlen in H.
      destruct (put_next buf d v F ltac:(lia)) as (b1 & E1 & L1 & F1 & _). rewrite E1. cbn [bind].
      destruct (IH b1 (d ++ [v])) as (b2 & E2 & L2 & F2).
      * rewrite app_length. cbn [length]. rewrite Nat.add_1_r. exact F1.
      * lia.
      * rewrite app_length. cbn [length]. lia.
      * assert (Hn : n = S (64 - length (d ++ [v]))) by (unfold n; rewrite app_length; cbn [length]; lia). rewrite Hn. cbn [firstn skipn].
        set (m := (64 - length (d ++ [v]))%nat) in *.
        replace (d ++ v :: firstn m data) with ((d ++ [v]) ++ firstn m data) by (rewrite <- app_assoc; reflexivity).
        exists b2. replace (nlen d + 1) with (nlen (d ++ [v])) by (rewrite nlen_app, nlen_cons, nlen_nil; lia).
        split; [exact E2|]. split; [exact L2|]. exact F2.
    + assert (Hn : n = 0%nat) by (unfold n, nlen in *; lia). rewrite Hn. cbn [firstn skipn]. rewrite app_nil_r.
      exists buf. auto.
Qed.

(** ** Blocks of a message *)
Lemma chunks_app n k a b : length a = (n * k)%nat -> forall m, chunks (n + m) k (a ++ b) = chunks n k a ++ chunks m k b.
Proof.
  revert a. induction n as [|n IH]; intros a H m; cbn [chunks Nat.add app].
  - destruct a; [reflexivity|cbn in H; lia].
  - apply f_equal2.
    + rewrite firstn_app. replace (k - length a)%nat with 0%nat by (cbn in H; lia). cbn [firstn]. apply app_nil_r.
    + rewrite skipn_app. replace (k - length a)%nat with 0%nat by (cbn in H; lia). cbn [skipn].
      apply IH. rewrite skipn_length. cbn in H. lia.
Qed.
Lemma blocks_app n m a b : length a = (n * 64)%nat -> length b = (m * 64)%nat -> blocks (a ++ b) = blocks a ++ blocks b.
Proof.
  intros Ha Hb. unfold blocks. rewrite app_length, Ha, Hb.
  replace (n * 64 + m * 64)%nat with ((n + m) * 64)%nat by lia. rewrite !Nat.div_mul by discriminate.
  apply chunks_app. exact Ha.
Qed.
Lemma blocks_one b : length b = 64%nat -> blocks b = [b].
Proof.
  intros H. unfold blocks. rewrite H. cbn [Nat.div Nat.divmod fst chunks]. change (fst (Nat.divmod 64 63 0 63)) with 1%nat.
  cbn [chunks]. rewrite firstn_all2 by lia. reflexivity.
Qed.

Definition digest_of (B : list N) : list N := fold_left compress (blocks B) H0.

Lemma H0_ok : hash_ok H0.
Proof. rewrite <- init_ok. split; [reflexivity|]. repeat constructor. Qed.
Lemma bytes_ok_firstn n l : bytes_ok l -> bytes_ok (firstn n l).
Proof. unfold bytes_ok. rewrite !Forall_forall. intros H x Hx. apply H. rewrite <- (firstn_skipn n l). apply in_or_app. left. exact Hx. Qed.
Lemma bytes_ok_skipn n l : bytes_ok l -> bytes_ok (skipn n l).
Proof. unfold bytes_ok. rewrite !Forall_forall. intros H x Hx. apply H. rewrite <- (firstn_skipn n l). apply in_or_app. right. exact Hx. Qed.

Lemma digest_ok n : forall B, length B = (n * 64)%nat -> bytes_ok B -> hash_ok (digest_of B).
Proof.
  intros B L Hb. unfold digest_of, blocks. rewrite L, Nat.div_mul by discriminate.
  assert (G : forall n B h, length B = (n * 64)%nat -> bytes_ok B -> hash_ok h -> hash_ok (fold_left compress (chunks n 64 B) h)).
  { clear. induction n as [|n IH]; intros B h L Hb Hh; cbn [chunks fold_left]; [exact Hh|].
    apply IH; [rewrite skipn_length; lia|apply bytes_ok_skipn, Hb|].
    apply process_block_compress; [exact Hh|apply bytes_ok_firstn, Hb|rewrite firstn_length; lia]. }
  apply G; [exact L|exact Hb|apply H0_ok].
Qed.
Lemma digest_snoc n B b : length B = (n * 64)%nat -> bytes_ok B -> length b = 64%nat -> bytes_ok b ->
  process_block (digest_of B) b = digest_of (B ++ b).
Proof.
  intros L Hb Lb Hbb. destruct (process_block_compress (digest_of B) b) as [E _]; [eapply digest_ok; eassumption|assumption|assumption|].
  rewrite E. unfold digest_of. rewrite (blocks_app n 1) by (assumption || lia). rewrite fold_left_app, (blocks_one b Lb). reflexivity.
Qed.

(** ** The object represents a message *)
Record repr (s : sha) (B p : list N) : Prop := {
  r_n : exists n, length B = (n * 64)%nat;
  r_p : (length p < 64)%nat;
  r_ok : bytes_ok (B ++ p);
  r_num : s_num s = nlen B mod two64;
  r_size : s_size s = nlen p;
  r_len : length (s_buf s) = 64%nat;
  r_buf : firstn (length p) (s_buf s) = p;
  r_hash : s_hash s = digest_of B }.

Lemma repr_reset buf : length buf = 64%nat -> repr (reset buf) [] [].
Proof.
  intros L. split; cbn [reset s_num s_size s_buf s_hash]; try reflexivity.
  - exists 0%nat. reflexivity.
  - cbn. lia.
  - constructor.
  - exact L.
Qed.

Lemma full_blocks_ok fuel : forall data num B n, (length data < fuel)%nat ->
  length B = (n * 64)%nat -> bytes_ok B -> bytes_ok data -> num = nlen B mod two64 ->
  exists D r, data = D ++ r /\ (length r < 64)%nat /\ (exists m, length D = (m * 64)%nat) /\
    full_blocks fuel data num (digest_of B) = Some (r, nlen (B ++ D) mod two64, digest_of (B ++ D)).
Proof.
  induction fuel as [|fuel IH]; intros data num B n Hf LB HB Hd Hn; [lia|]. cbn [full_blocks].
  destruct (N.leb_spec 64 (nlen data)) as [H|H]; unfold nlen in H.
  - assert (L1 : length (firstn 64 data) = 64%nat) by (rewrite firstn_length; lia).
    rewrite (digest_snoc n) by (try assumption; apply bytes_ok_firstn, Hd).
    destruct (IH (skipn 64 data) ((num + 64) mod two64) (B ++ firstn 64 data) (S n)) as (D & r & E1 & Lr & (m & LD) & E2).
    + rewrite skipn_length. lia.
    + rewrite app_length. lia.
    + apply bytes_ok_app. split; [exact HB|apply bytes_ok_firstn, Hd].
    + apply bytes_ok_skipn, Hd.
    + subst num. rewrite nlen_app. unfold nlen at 3. rewrite L1. rewrite N.add_mod_idemp_l by discriminate. reflexivity.
    + exists (firstn 64 data ++ D), r. split; [rewrite <- app_assoc, <- E1; symmetry; apply firstn_skipn|].
      split; [exact Lr|]. split; [exists (S m); rewrite app_length; lia|].
      rewrite E2, <- app_assoc. reflexivity.
  - exists [], data. rewrite app_nil_r. subst num. split; [reflexivity|]. split; [lia|]. split; [exists 0%nat; reflexivity|reflexivity].
Qed.

Lemma add_ok s B p data : repr s B p -> bytes_ok data ->
  exists s' B' p', add data s = Some s' /\ repr s' B' p' /\ B' ++ p' = B ++ p ++ data.
Proof.
  intros [[n LB] Lp Hok Hn Hs Hl Hbuf Hh] Hd. unfold add.
  apply bytes_ok_app in Hok. destruct Hok as [HB Hp].
  assert (G : exists buf q rest, (if 0 <? s_size s then fill data (s_buf s) (s_size s) else Some (s_buf s, s_size s, data))
      = Some (buf, nlen q, rest) /\ q ++ rest = p ++ data /\ length buf = 64%nat /\ firstn (length q) buf = q /\
      (length q <= 64)%nat /\ (length q = 64%nat \/ rest = [] \/ q = [])).
  { rewrite Hs. destruct (N.ltb_spec 0 (nlen p)) as [H|H].
    - destruct (fill_ok data (s_buf s) p Hbuf Hl ltac:(lia)) as (buf' & E & L & F).
      set (m := (64 - length p)%nat) in *. exists buf', (p ++ firstn m data), (skipn m data).
      rewrite E. split; [reflexivity|]. rewrite <- app_assoc, firstn_skipn. split; [reflexivity|].
      split; [exact L|]. split; [exact F|]. rewrite app_length, firstn_length. split; [lia|].
      destruct (Nat.le_gt_cases (length data) m) as [Q|Q]; [right; left; apply skipn_all2; exact Q|left; unfold m in *; lia].
    - assert (p = []) by (apply nlen_0; lia). subst p. exists (s_buf s), [], data.
      split; [reflexivity|]. split; [reflexivity|]. split; [exact Hl|]. split; [reflexivity|]. split; [cbn; lia|]. auto. }
  destruct G as (buf & q & rest & E & Eq & Lb & Fb & Lq & Hc). rewrite E. cbn [bind]. clear E.
  assert (Hqr : bytes_ok (q ++ rest)) by (rewrite Eq; apply bytes_ok_app; split; assumption).
  apply bytes_ok_app in Hqr. destruct Hqr as [Hq Hrest].
  assert (G : exists B1 q1 n1, (if nlen q =? 64 then (process_block (s_hash s) buf, (s_num s + 64) mod two64, 0) else (s_hash s, s_num s, nlen q))
     = (digest_of B1, nlen B1 mod two64, nlen q1) /\ B1 ++ q1 = B ++ q /\ length B1 = (n1 * 64)%nat /\ bytes_ok B1 /\ bytes_ok q1 /\
     firstn (length q1) buf = q1 /\ (length q1 < 64)%nat /\ (rest = [] \/ q1 = [])).
  { destruct (N.eqb_spec (nlen q) 64) as [H|H]; unfold nlen in H.
    - assert (buf = q). { rewrite <- Fb. rewrite firstn_all2 by lia. reflexivity. } subst buf.
      exists (B ++ q), [], (S n). rewrite Hh, (digest_snoc n) by assumption. rewrite app_nil_r.
      split; [|split; [reflexivity|split; [rewrite app_length; lia|split; [apply bytes_ok_app; split; assumption|split; [constructor|split; [reflexivity|split; [cbn; lia|auto]]]]]]].
      rewrite Hn, nlen_app, N.add_mod_idemp_l by discriminate. unfold nlen at 3. rewrite H. reflexivity.
    - exists B, q, n. rewrite Hh, Hn. split; [reflexivity|]. split; [reflexivity|]. split; [exact LB|]. split; [exact HB|].
      split; [exact Hq|]. split; [exact Fb|]. split; [lia|]. destruct Hc as [Hc|[Hc|Hc]]; [lia|auto|auto]. }
  destruct G as (B1 & q1 & n1 & E & Eq1 & LB1 & HB1 & Hq1 & Fb1 & Lq1 & Hc1). rewrite E. clear E.
  destruct (N.eqb_spec (nlen rest) 0) as [H|H].
  - apply nlen_0 in H. subst rest. eexists _, B1, q1. split; [reflexivity|]. split.
    + split; cbn [s_num s_size s_buf s_hash]; try assumption; try reflexivity.
      * exists n1. exact LB1.
      * apply bytes_ok_app. split; assumption.
    + rewrite app_nil_r in Eq. rewrite Eq1, Eq. reflexivity.
  - destruct Hc1 as [Hc1|Hc1]; [subst rest; exfalso; apply H; reflexivity|]. subst q1. rewrite app_nil_r in Eq1. subst B1.
    destruct (full_blocks_ok (S (length rest)) rest (nlen (B ++ q) mod two64) (B ++ q) n1) as (D & r & E1 & Lr & (m & LD) & E2);
      [lia|assumption|assumption|assumption|reflexivity|]. rewrite E2. cbn [bind].
    destruct (keep_ok r buf []) as (buf' & E3 & L3 & F3); [reflexivity|cbn [length]; lia|].
    cbn [app] in E3, F3. change (nlen (@nil N)) with 0 in *. rewrite E3. cbn [bind].
    rewrite E1 in Hrest. apply bytes_ok_app in Hrest. destruct Hrest as [HD Hr].
    eexists _, ((B ++ q) ++ D), r. split; [reflexivity|]. split.
    + split; cbn [s_num s_size s_buf s_hash]; try reflexivity; try assumption.
      * exists (n1 + m)%nat. rewrite app_length. lia.
      * repeat (apply bytes_ok_app; split); assumption.
      * lia.
    + rewrite <- !app_assoc, <- E1. rewrite Eq. reflexivity.
Qed.

(** ** Finishing *)
Lemma length_bytes_be v : length_bytes v = be_bytes 8 v.
Proof.
  unfold length_bytes. cbn [map]. change 255 with (N.ones 8). rewrite !N.land_ones, !N.shiftr_div_pow2.
  unfold be_bytes. cbn [le_bytes rev app]. rewrite !N.div_div by discriminate.
  cbn [N.mul Pos.mul Pos.add]. rewrite N.pow_0_r, N.div_1_r. reflexivity.
Qed.
Lemma word_bytes_be v : [N.land (N.shiftr v 24) 255; N.land (N.shiftr v 16) 255; N.land (N.shiftr v 8) 255; N.land v 255] = be_bytes 4 v.
Proof.
  change 255 with (N.ones 8). rewrite !N.land_ones, !N.shiftr_div_pow2.
  unfold be_bytes. cbn [le_bytes rev app]. rewrite !N.div_div by discriminate. reflexivity.
Qed.
Lemma bytes_ok_repeat n : bytes_ok (repeat 0 n).
Proof. induction n; constructor; [reflexivity|assumption]. Qed.

Ltac bo := repeat match goal with |- bytes_ok (_ ++ _) => apply bytes_ok_app; split end;
  first [assumption|apply bytes_ok_repeat|apply be_bytes_ok|repeat constructor].

Lemma process_buffer_ok s B p extra : repr s B p -> length extra = 64%nat -> nlen (B ++ p) < 2305843009213693952 ->
  exists buf', process_buffer extra s = Some (buf', hash_words (B ++ p)) /\ length buf' = 64%nat /\ firstn (length p) buf' = p.
Proof.
  intros [[n LB] Lp Hok Hn Hs Hl Hbuf Hh] Lx Hm. unfold process_buffer. rewrite Hs.
  apply bytes_ok_app in Hok. destruct Hok as [HB Hp].
  assert (Np : nlen p < 64) by (unfold nlen; lia).
  assert (Nn : N.to_nat (nlen p) = length p) by (unfold nlen; lia).
  assert (NB : nlen B mod 64 = 0) by (unfold nlen; lia).
  set (msg := (8 * ((s_num s + nlen p) mod two64)) mod two64).
  assert (Em : msg = 8 * nlen (B ++ p)).
  { unfold msg. rewrite Hn. rewrite N.add_mod_idemp_l by discriminate. rewrite <- nlen_app.
    unfold two64. rewrite (N.mod_small (nlen (B ++ p))) by lia. apply N.mod_small. lia. }
  rewrite length_bytes_be, Em. clear msg Em.
  set (len8 := be_bytes 8 (8 * nlen (B ++ p))).
  assert (L8 : length len8 = 8%nat) by apply be_bytes_length.
  assert (H8 : bytes_ok len8) by apply be_bytes_ok.
  change 511 with (N.ones 9). rewrite N.land_ones. change (2 ^ 9) with 512.
  rewrite (N.mod_small (nlen p * 8 + 1) 512) by lia.
  replace (nlen p <? 64) with true by lia. rewrite Nn.
  destruct (put_next (s_buf s) p 128 Hbuf ltac:(lia)) as (b1 & E1 & L1 & F1 & _). rewrite E1. cbn [bind].
  rewrite zeros_puts.
  replace (N.to_nat (nlen p + 1)) with (length (p ++ [128])) by (rewrite app_length; cbn [length]; lia).
  destruct (puts_ok (repeat 0 (N.to_nat (64 - (nlen p + 1)))) b1 (p ++ [128])) as (b2 & E2 & L2 & F2).
  { rewrite app_length. cbn [length]. rewrite Nat.add_1_r. exact F1. }
  { rewrite app_length, repeat_length. cbn [length]. lia. }
  rewrite E2. cbn [bind].
  rewrite app_length, repeat_length in F2. cbn [length] in F2.
  replace (length p + 1 + N.to_nat (64 - (nlen p + 1)))%nat with 64%nat in F2 by lia.
  rewrite firstn_all2 in F2 by lia.
  replace (N.max (nlen p + 1) 64) with 64 by lia.
  unfold hash_words, pad. fold len8.
  assert (Hlen : nlen (B ++ p) mod 64 = nlen p) by (rewrite nlen_app; lia).
  destruct (N.leb_spec (nlen p * 8 + 1) 448) as [Hc|Hc].
  - replace ((nlen p * 8 + 1 + (448 - (nlen p * 8 + 1))) / 8) with 56 by lia.
    change (56 - 64) with 0. change (N.to_nat 0) with 0%nat. cbn [zeros bind].
    change (56 <? 64) with true. change (64 <? 56) with false. cbv iota.
    assert (Z : zero_count (nlen (B ++ p)) = 55 - nlen p) by (unfold zero_count; rewrite Hlen; lia). rewrite Z.
    set (zs := repeat 0 (N.to_nat (55 - nlen p))).
    set (d := p ++ [128] ++ zs).
    assert (Ld : length d = 56%nat) by (unfold d, zs; rewrite !app_length, repeat_length; cbn [length]; lia).
    assert (F2' : b2 = d ++ repeat 0 8).
    { rewrite F2. unfold d, zs. rewrite <- !app_assoc. do 2 f_equal. rewrite <- repeat_app. f_equal. lia. }
    change (N.to_nat 56) with 56%nat. rewrite <- Ld.
    destruct (puts_ok len8 b2 d) as (b3 & E3 & L3 & F3).
    { rewrite F2'. apply firstn_exact. reflexivity. }
    { lia. }
    rewrite E3. cbn [bind]. rewrite Ld, L8, firstn_all2 in F3 by lia. subst b3.
    eexists. split; [apply f_equal; apply f_equal2; [reflexivity|]|split; [lia|unfold d; rewrite <- app_assoc; apply firstn_exact; reflexivity]].
    rewrite Hh. rewrite (digest_snoc n).
    + unfold digest_of. f_equal. f_equal. unfold d. rewrite <- !app_assoc. reflexivity.
    + exact LB.
    + exact HB.
    + rewrite app_length. lia.
    + unfold d, zs. rewrite <- !app_assoc. bo.
  - replace ((nlen p * 8 + 1 + (512 + 448 - (nlen p * 8 + 1))) / 8) with 120 by lia.
    change (N.to_nat (120 - 64)) with 56%nat. change (N.to_nat (64 - 64)) with 0%nat.
    change (120 <? 64) with false. change (64 <? 120) with true. cbv iota.
    rewrite zeros_puts.
    destruct (puts_ok (repeat 0 56) extra []) as (x1 & E3 & L3 & F3); [reflexivity|cbn; lia|].
    change (length (@nil N)) with 0%nat in E3. rewrite E3. cbn [bind].
    destruct (puts_ok len8 x1 (repeat 0 56)) as (x2 & E4 & L4 & F4).
    { exact F3. }
    { rewrite L8, repeat_length. lia. }
    rewrite repeat_length in E4. rewrite E4. cbn [bind].
    rewrite L8, repeat_length, firstn_all2 in F4 by lia. subst x2.
    assert (Z : zero_count (nlen (B ++ p)) = 119 - nlen p) by (unfold zero_count; rewrite Hlen; lia). rewrite Z.
    eexists. split; [apply f_equal; apply f_equal2; [reflexivity|]|split; [lia|rewrite F2, <- app_assoc; apply firstn_exact; reflexivity]].
    rewrite Hh.
    assert (Hb2 : bytes_ok b2).
    { rewrite F2. bo. }
    rewrite (digest_snoc n) by (try assumption; lia).
    rewrite (digest_snoc (S n)).
    + unfold digest_of. f_equal. f_equal. rewrite F2. rewrite <- !app_assoc. do 3 f_equal.
      rewrite app_assoc, <- repeat_app. f_equal. f_equal. lia.
    + rewrite app_length. lia.
    + apply bytes_ok_app. split; assumption.
    + rewrite app_length, repeat_length. lia.
    + apply bytes_ok_app. split; [apply bytes_ok_repeat|exact H8].
Qed.

Lemma pad_length m : exists k, length (pad m) = (k * 64)%nat.
Proof.
  exists ((length (pad m)) / 64)%nat. unfold pad. rewrite !app_length, repeat_length, be_bytes_length. cbn [length].
  unfold zero_count. unfold nlen. lia.
Qed.
Lemma hash_words_ok m : bytes_ok m -> hash_ok (hash_words m).
Proof.
  intros H. destruct (pad_length m) as (k & L). apply (digest_ok k (pad m) L).
  unfold pad. bo.
Qed.

Lemma dec2hex_ok v : v < 16 -> dec2hex v = hex_digit v.
Proof.
  intros H. rewrite <- (N2Nat.id v). assert (L : (N.to_nat v < 16)%nat) by lia. revert L. generalize (N.to_nat v). intros n L.
  do 16 (destruct n as [|n]; [reflexivity|]). lia.
Qed.
Lemma hex_text_ok raw : bytes_ok raw -> hex_text raw = hex raw.
Proof.
  unfold hex_text, hex. intros H. f_equal. apply map_ext_in. intros b Hb.
  assert (Hx : b < 256) by (unfold bytes_ok in H; rewrite Forall_forall in H; apply H; exact Hb).
  change 15 with (N.ones 4). rewrite !N.land_ones, N.shiftr_div_pow2. change (2 ^ 4) with 16.
  rewrite !dec2hex_ok by lia. rewrite (N.mod_small (b / 16) 16) by lia. reflexivity.
Qed.

Lemma get_hash_ok s B p extra : repr s B p -> length extra = 64%nat -> nlen (B ++ p) < 2305843009213693952 ->
  exists s', get_hash extra s = Some (hex (sha256 (B ++ p)), s') /\ repr s' B p.
Proof.
  intros R Lx Hm. destruct (process_buffer_ok s B p extra R Lx Hm) as (buf' & E & L & F).
  unfold get_hash, get_raw. rewrite E. cbn [bind].
  pose proof (r_ok _ _ _ R) as Hok. destruct (hash_words_ok (B ++ p) Hok) as [L8 _].
  eexists. split.
  - apply f_equal. apply f_equal2; [|reflexivity].
    unfold sha256. rewrite (map_ext _ (fun i => be_bytes 4 (nth i (hash_words (B ++ p)) 0))) by (intros i; apply word_bytes_be).
    replace (map (fun i => be_bytes 4 (nth i (hash_words (B ++ p)) 0)) (seq 0 8)) with (map (be_bytes 4) (hash_words (B ++ p))).
    + apply hex_text_ok. generalize (hash_words (B ++ p)). intros l. induction l as [|x l IH]; cbn [map concat]; [constructor|].
      apply bytes_ok_app. split; [apply be_bytes_ok|exact IH].
    + destruct (hash_words (B ++ p)) as [|? [|? [|? [|? [|? [|? [|? [|? [|]]]]]]]]]; try discriminate L8. reflexivity.
  - destruct R as [? ? ? ? ? ? ? ?]. split; cbn [s_num s_size s_buf s_hash]; assumption.
Qed.
