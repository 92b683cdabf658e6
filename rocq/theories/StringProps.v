(** Properties C31-C37 and C61-C63: text.  Specifications are in UtfSpec.v and StringSpec.v. *)
From Coq Require Import List NArith ZArith Lia Bool String.
From Coq Require Import ZifyN ZifyNat ZifyBool.
From Verif Require Import Bytes BytesProofs Txt UtfSpec UtfModel UtfProofs StringModel StringSpec StringProofs StringProofs2.
Import ListNotations.
Open Scope N_scope.
Open Scope list_scope.
Ltac Zify.zify_post_hook ::= Z.div_mod_to_equations.

(** C31. For every byte sequence [b] (the first [nlen b] bytes of a possibly longer buffer
    [b ++ t]): decoding reads only [b] and writes at most [nlen b] units before the terminator, so
    the buffer of [nlen b + 1] units allocated by the callers is large enough. *)
Theorem C31_utf8_bound : forall b t, exists out,
  utf8_to_tx b (nlen b) = Some out /\ utf8_to_tx (b ++ t) (nlen b) = Some out
  /\ nlen out + 1 <= nlen b + 1.
Proof.
  intros b t. destruct (utf8_to_tx_safe b (nlen b) (N.le_refl _)) as (out & E & L).
  exists out. split; [assumption|]. split; [|lia].
  unfold utf8_to_tx in *. now rewrite utf8_loop_app.
Qed.
Print Assumptions C31_utf8_bound.
(** Malformed input: a stray continuation byte, a cut-off four-byte sequence. *)
Example C31_ex : utf8_to_tx [65; 128; 240; 159; 152] 5 = Some [65; 63; 63; 63; 63].
Proof. reflexivity. Qed.

(** C32. Scalar values to UTF-16 and back, for texts without U+0000 (which ends a text); a buffer of
    [n] elements receives the first [n - 1] characters. *)
Theorem C32_utf32_roundtrip : forall cs n, Forall (fun c => scalar c /\ c <> 0) cs -> 1 <= n -> n < two64 ->
  utf32_buffer_to_tx cs (List.length cs) = enc16 cs
  /\ tx_to_utf32 (enc16 cs) n = firstn (N.to_nat (n - 1)) cs.
Proof.
  intros cs n F H1 H2. split.
  - rewrite utf32_buffer_enc by assumption. now rewrite firstn_all.
  - unfold tx_to_utf32. rewrite tx_loop_enc; [|assumption|unfold nlen; lia]. f_equal. f_equal.
    replace (n + two64 - 1) with (n - 1 + 1 * two64) by lia.
    rewrite N.mod_add by (unfold two64; lia). apply N.mod_small. lia.
Qed.
Print Assumptions C32_utf32_roundtrip.
(** Any units at all, also malformed: the result consists of scalar values and fits the buffer. *)
Theorem C32_utf32_total : forall l n, Forall (fun u => u < 65536) l -> 1 <= n -> n < two64 ->
  Forall (fun c => scalar c /\ c <> 0) (tx_to_utf32 l n) /\ nlen (tx_to_utf32 l n) + 1 <= n.
Proof.
  intros l n F H1 H2. unfold tx_to_utf32. split; [now apply tx_loop_scalar|].
  match goal with |- nlen (tx_to_utf32_loop ?a ?b ?c) + 1 <= _ => pose proof (tx_loop_length a b c) end.
  replace (n + two64 - 1) with (n - 1 + 1 * two64) in * by lia.
  rewrite N.mod_add in * by (unfold two64; lia). rewrite N.mod_small in * by lia. lia.
Qed.
Print Assumptions C32_utf32_total.
(** Well-formed UTF-8 decodes to the scalar values encoded (the project's decoder). *)
Theorem C32_utf8_decode : forall cs, Forall scalar cs -> utf8_to_tx (enc8 cs) (nlen (enc8 cs)) = Some (enc16 cs).
Proof. exact utf8_to_tx_enc. Qed.
Print Assumptions C32_utf8_decode.
Example C32_ex : utf32_buffer_to_tx [65; 8364; 128512] 3 = [65; 8364; 55357; 56832]
  /\ tx_to_utf32 [65; 8364; 55357; 56832] 4 = [65; 8364; 128512]
  /\ utf8_to_tx [65; 226; 130; 172; 240; 159; 152; 128] 8 = Some [65; 8364; 55357; 56832].
Proof. repeat split. Qed.
Example C32_ex_hyp : Forall (fun c => scalar c /\ c <> 0) [65; 8364; 128512].
Proof. repeat constructor; unfold scalar; lia. Qed.
(** The Linux path (std::wstring_convert modelled as strict conversion): text from well-formed UTF-8
    without zero bytes is its UTF-16 form, and converting it back gives the same bytes. *)
Theorem C32_linux_roundtrip : forall cs, Forall (fun c => scalar c /\ c <> 0) cs ->
  set_from_chars (enc8 cs) = Some (enc16 cs) /\ to_bytes (enc16 cs) = Some (enc8 cs).
Proof.
  intros cs F. assert (F' : Forall scalar cs) by (revert F; apply Forall_impl; tauto). split.
  - unfold set_from_chars. rewrite upto_nul_id by now apply enc8_no_nul. apply from_bytes_iff. eauto.
  - apply to_bytes_iff; [now apply enc16_units|]. eauto.
Qed.
Print Assumptions C32_linux_roundtrip.

(** C33. Left, Truncate, Right and Mid of well-formed text [enc16 cs] give exactly the characters
    lying entirely in the selected range. *)
Theorem C33_left : forall cs n, Forall scalar cs -> fits_left cs n (left (enc16 cs) n).
Proof. exact left_fits. Qed.
Theorem C33_truncate : forall cs n, Forall scalar cs -> fits_left cs n (truncate (enc16 cs) n).
Proof. exact truncate_fits. Qed.
Theorem C33_right : forall cs n, Forall scalar cs -> fits_right cs n (right (enc16 cs) n).
Proof. exact right_fits. Qed.
Theorem C33_mid : forall cs p n, Forall scalar cs ->
  (p < nlen (enc16 cs) -> fits_mid cs p n (mid (enc16 cs) p n))
  /\ (nlen (enc16 cs) <= p -> mid (enc16 cs) p n = []).
Proof.
  intros cs p n F. split; [now apply mid_fits|]. intros H. unfold mid. now replace (_ <=? p) with true by lia.
Qed.
(** In particular the results are well-formed. *)
Theorem C33_wellformed : forall s p n, wf16 s ->
  wf16 (left s n) /\ wf16 (truncate s n) /\ wf16 (right s n) /\ wf16 (mid s p n).
Proof.
  intros s p n (cs & F & ->).
  assert (G : forall x y : list N, Forall scalar (x ++ y) -> Forall scalar x /\ Forall scalar y) by (intros x y H; now apply Forall_app).
  split; [|split; [|split]].
  - destruct (C33_left cs n F) as (x & y & -> & -> & _). exists x. split; [now apply (G x y)|reflexivity].
  - destruct (C33_truncate cs n F) as (x & y & -> & -> & _). exists x. split; [now apply (G x y)|reflexivity].
  - destruct (C33_right cs n F) as (x & y & -> & -> & _). exists y. split; [now apply (G x y)|reflexivity].
  - destruct (C33_mid cs p n F) as [H1 H2]. destruct (N.lt_ge_cases p (nlen (enc16 cs))) as [L|L].
    + destruct (H1 L) as (x & y & z & -> & -> & _). exists y. split; [|reflexivity].
      apply G in F as [_ F]. now apply G in F.
    + rewrite H2 by assumption. exists []. split; [constructor|reflexivity].
Qed.
Print Assumptions C33_left. Print Assumptions C33_truncate. Print Assumptions C33_right.
Print Assumptions C33_mid. Print Assumptions C33_wellformed.
(** "A", U+1F600, "B": cutting inside the pair drops it. *)
Example C33_ex : let s := [65; 55357; 56832; 66] in
  left s 2 = [65] /\ left s 3 = [65; 55357; 56832] /\ right s 2 = [66] /\ mid s 2 2 = [66] /\ mid s 1 2 = [55357; 56832]
  /\ mid s 2 0 = [] /\ mid s 0 2 = [65].
Proof. repeat split. Qed.

(** C34. Equality is case folding equality, an equivalence; equal texts have equal hashes with
    [TXStringNoCaseHash], for any underlying hash function [h]. *)
Theorem C34_equality : forall a b, txeq a b = true <-> map (fold true) a = map (fold true) b.
Proof. exact txeq_lower. Qed.
Theorem C34_equivalence :
  (forall a, txeq a a = true) /\ (forall a b, txeq a b = txeq b a)
  /\ (forall a b c, txeq a b = true -> txeq b c = true -> txeq a c = true).
Proof.
  split; [|split].
  - intros a. now apply txeq_iff.
  - intros a b. destruct (txeq a b) eqn:E1, (txeq b a) eqn:E2; try reflexivity.
    + apply txeq_iff in E1. symmetry in E1. apply txeq_iff in E1. congruence.
    + apply txeq_iff in E2. symmetry in E2. apply txeq_iff in E2. congruence.
  - intros a b c H1 H2. apply txeq_iff in H1, H2. apply txeq_iff. congruence.
Qed.
Theorem C34_hash : forall h a b, txeq a b = true -> tx_hash_no_case h a = tx_hash_no_case h b.
Proof. intros h a b H. unfold tx_hash_no_case. apply txeq_lower in H. now rewrite H. Qed.
(** A hash container using that hash finds a text under every spelling equal to it, and only then. *)
Theorem C34_container : forall (A : Type) h n (m : umap A) k a k',
  umap_find (tx_hash_no_case h) n (umap_emplace (tx_hash_no_case h) n m k a) k'
  = if txeq k k' then match umap_find (tx_hash_no_case h) n m k with Some x => Some x | None => Some a end
    else umap_find (tx_hash_no_case h) n m k'.
Proof.
  intros A h n m k a k'. destruct C34_equivalence as (R & S & Tr).
  assert (X : forall k k', txeq k k' = true ->
    umap_find (tx_hash_no_case h) n m k = umap_find (tx_hash_no_case h) n m k').
  { intros x y E. unfold umap_find. rewrite (C34_hash h x y E).
    replace (find (fun p => txeq (fst p) x) (m (tx_hash_no_case h y mod n)))
      with (find (fun p => txeq (fst p) y) (m (tx_hash_no_case h y mod n))); [reflexivity|].
    induction (m (tx_hash_no_case h y mod n)) as [|p l IH]; [reflexivity|]. cbn [find].
    replace (txeq (fst p) x) with (txeq (fst p) y); [now rewrite IH|].
    destruct (txeq (fst p) y) eqn:E1, (txeq (fst p) x) eqn:E2; try reflexivity.
    - rewrite S in E. now rewrite (Tr _ _ _ E1 E) in E2.
    - now rewrite (Tr _ _ _ E2 E) in E1. }
  unfold umap_emplace. destruct (txeq k k') eqn:E.
  - destruct (umap_find (tx_hash_no_case h) n m k) as [x|] eqn:E1.
    + now rewrite <- (X k k' E).
    + unfold umap_find. rewrite <- (C34_hash h k k' E), N.eqb_refl. cbn [find fst]. now rewrite E.
  - destruct (umap_find (tx_hash_no_case h) n m k) as [x|]; [reflexivity|].
    unfold umap_find. destruct (_ =? _) eqn:Eb; [|reflexivity]. cbn [find fst]. now rewrite E.
Qed.
Print Assumptions C34_equality. Print Assumptions C34_equivalence. Print Assumptions C34_hash. Print Assumptions C34_container.
(** False for [TSymDefMap] (SceneDataExchange.h:29), which uses std::hash<TXString>: two texts are
    equal but have different hashes under every collision-free hash, and a symbol stored as "SYM" is
    not found as "sym" whenever the two fall into different buckets. *)
Theorem C34_symdef_map_refuted : exists a b, txeq a b = true
  /\ (forall h : list N -> N, (forall x y, h x = h y -> x = y) -> tx_hash h a <> tx_hash h b)
  /\ (forall (h : list N -> N) n (v : N), h a mod n <> h b mod n ->
      umap_find (tx_hash h) n (umap_emplace (tx_hash h) n umap_empty a v) b = None).
Proof.
  exists (T"SYM"), (T"sym"). split; [reflexivity|]. split.
  - intros h Hi C. now apply Hi in C.
  - intros h n v H. unfold umap_emplace, umap_find, umap_empty, tx_hash in *. cbn [find].
    replace (_ =? _) with false by lia. reflexivity.
Qed.
Print Assumptions C34_symdef_map_refuted.

(** C35. With a non-empty old text Replace ends (after at most one pass per unit) and yields the text
    with the leftmost non-overlapping occurrences replaced, with and without case. *)
Theorem C35_replace : forall s old new ignoreCase fuel,
  old <> [] -> nlen old < 2147483648 -> nlen s * (1 + nlen new) < two64 -> (List.length s < fuel)%nat ->
  exists r, replace fuel s old new ignoreCase = Done r /\ Repl (fold ignoreCase) old new s r.
Proof.
  intros s old new ic fuel Ho _ Hb Hf. unfold replace. destruct ic.
  - apply (replace_loop_ic_ok old new Ho fuel [] [] s Hf); [|exact Hb].
    change (nlen (@nil N)) with 0. nia.
  - apply (replace_loop_ok old new Ho fuel [] s Hf).
Qed.
Print Assumptions C35_replace.
(** For a one-unit old text: every occurrence, and nothing else, is replaced. *)
Theorem C35_single : forall s c new fuel, nlen s * (1 + nlen new) < two64 -> (List.length s < fuel)%nat ->
  replace fuel s [c] new false = Done (flat_map (fun x => if x =? c then new else [x]) s).
Proof.
  intros s c new fuel Hb Hf.
  destruct (C35_replace s [c] new false fuel) as (r & E & R); [discriminate|reflexivity|assumption..|].
  rewrite E. f_equal. clear E Hb Hf fuel. cbn [fold] in R.
  assert (NO : forall a t : list N, (forall p, p < nlen a -> ~ occ (fun x => x) [c] (a ++ t) p) ->
    flat_map (fun x => if x =? c then new else [x]) a = a).
  { induction a as [|x a IH]; intros t H; [reflexivity|]. cbn [flat_map].
    replace (x =? c) with false.
    - cbn [app]. f_equal. apply (IH t). intros p Hp (b & m & d & E1 & E2 & E3).
      apply (H (p + 1)); [rewrite nlen_cons; lia|]. exists (x :: b), m, d. cbn [app]. rewrite E1, nlen_cons.
      repeat split; [lia|assumption].
    - symmetry. apply N.eqb_neq. intros ->. apply (H 0); [rewrite nlen_cons; lia|]. exists [], [c], (a ++ t). auto. }
  induction R as [s H|a m b r Hm Hp R IH].
  - symmetry. apply (NO s []). intros p _. rewrite app_nil_r. apply H.
  - rewrite !map_id in Hm. subst m. rewrite !flat_map_app. cbn [flat_map]. rewrite N.eqb_refl, app_nil_r, <- IH.
    now rewrite (NO a ([c] ++ b)).
Qed.
Print Assumptions C35_single.
(** An empty old text makes the loop endless. *)
Theorem C35_empty_pattern_never_ends : forall s new fuel, replace fuel s [] new false = NoEnd.
Proof. intros. apply replace_nil_loop. lia. Qed.
Print Assumptions C35_empty_pattern_never_ends.
Theorem C35_empty_pattern_refuted : exists s old new, forall fuel, replace fuel s old new false = NoEnd.
Proof. exists (T"abc"), [], (T"x"). intros. apply C35_empty_pattern_never_ends. Qed.
Print Assumptions C35_empty_pattern_refuted.
Example C35_ex : replace 20 (T"aaa/AAb") (T"aa") (T"xyz") true = Done (T"xyza/xyzb")
  /\ replace 20 (T"aaa/AAb") (T"aa") (T"xyz") false = Done (T"xyza/AAb").
Proof. split; reflexivity. Qed.

(** C36. False as stated: on a non-empty text that does not end with the separator Split never ends;
    nor does it with a separator of two or more units. *)
Theorem C36_split_never_ends :
  (forall s ch fuel, s <> [] -> nlen s < npos -> last s 0 <> ch -> split_ch fuel s ch = NoEnd)
  /\ (forall s sep fuel, s <> [] -> nlen s < npos -> 2 <= nlen sep -> split_str fuel s sep = NoEnd).
Proof.
  split.
  - intros s ch fuel Hs Hl Hc. unfold split_ch.
    assert (1 <= nlen s) by (destruct s; [congruence|rewrite nlen_cons; lia]).
    apply split_never; [assumption|assumption| |reflexivity].
    intros p k E. pose proof (find_ch_spec s ch p) as S. rewrite E in S. destruct S as (_ & S & _).
    split; [now apply at_pos_lt in S|]. intros C. apply Hc. now apply (at_pos_last s k).
  - intros s sep fuel Hs Hl Hc. unfold split_str.
    assert (1 <= nlen s) by (destruct s; [congruence|rewrite nlen_cons; lia]).
    apply split_never; [assumption|assumption| |reflexivity].
    intros p k E. unfold tx_find in E. destruct sep as [|x sep]; [discriminate|].
    pose proof (find_occ false s (x :: sep) p) as S. cbv iota in S. rewrite E in S. destruct S as (_ & S & _).
    apply occ_bound in S. lia.
Qed.
Print Assumptions C36_split_never_ends.
Theorem C36_split_refuted : exists s ch, forall fuel, split_ch fuel s ch = NoEnd.
Proof.
  exists (T"ab,c"), 44. intros fuel. destruct C36_split_never_ends as [H _]. apply H; [discriminate|reflexivity|discriminate].
Qed.
Print Assumptions C36_split_refuted.
(** What holds: for non-empty well-formed pieces without the separator, each followed by the
    separator, Split gives the pieces back.  The empty text gives one empty piece. *)
Theorem C36_split_partial : forall ch cps fuel,
  let ps := map enc16 cps in
  cps <> [] -> Forall (fun p => p <> [] /\ Forall scalar p /\ ~ In ch (enc16 p)) cps ->
  nlen (join ch ps) < npos -> (List.length cps <= fuel)%nat ->
  split_ch fuel (join ch ps) ch = Done ps.
Proof.
  intros ch cps fuel ps Hne F L Lf. unfold split_ch.
  apply (split_join ch ps [] fuel [] (join ch ps)); try assumption.
  - reflexivity.
  - unfold ps. destruct cps; [congruence|discriminate].
  - unfold ps. apply Forall_forall. intros x Hx. apply in_map_iff in Hx as (p & <- & Hp).
    rewrite Forall_forall in F. destruct (F p Hp) as (H1 & H2 & H3). split; [|split].
    + destruct p as [|c p]; [congruence|]. rewrite enc16_cons. intros C. apply (f_equal nlen) in C.
      rewrite nlen_app, enc16_1_length, nlen_nil in C. destruct (c <? 65536); lia.
    + assumption.
    + unfold trim_invalid. rewrite trim_left_enc, trim_right_enc by assumption. reflexivity.
  - unfold ps. now rewrite map_length.
Qed.
Print Assumptions C36_split_partial.
Example C36_ex : split_ch 9 (T"ab,c,") 44 = Done [T"ab"; T"c"] /\ split_ch 9 [] 44 = Done [[]]
  /\ split_ch 99 (T"ab,c") 44 = NoEnd.
Proof. repeat split. Qed.

(** C37. [occ f sub s p]: [sub] lies at position [p]. *)
Theorem C37_find : forall s sub pos ic, sub <> [] ->
  match tx_find s sub pos ic with
  | Some p => pos <= p /\ occ (fold ic) sub s p /\ forall q, pos <= q -> q < p -> ~ occ (fold ic) sub s q
  | None => forall q, pos <= q -> ~ occ (fold ic) sub s q
  end.
Proof. intros s sub pos ic H. destruct sub as [|x sub]; [congruence|]. apply (find_occ ic s (x :: sub) pos). Qed.
Theorem C37_reverse_find : forall s sub pos ic, sub <> [] ->
  match tx_rfind s sub pos ic with
  | Some p => p <= pos /\ occ (fold ic) sub s p /\ forall q, q <= pos -> p < q -> ~ occ (fold ic) sub s q
  | None => forall q, q <= pos -> ~ occ (fold ic) sub s q
  end.
Proof. intros s sub pos ic H. destruct sub as [|x sub]; [congruence|]. apply (rfind_occ ic s (x :: sub) pos). Qed.
Lemma at_pos_fold (ic : bool) s p : at_pos (if ic then make_lower s else s) p = option_map (fold ic) (at_pos s p).
Proof.
  destruct ic; unfold at_pos, make_lower; [apply nth_error_map|]. cbn [fold].
  now destruct (nth_error s (N.to_nat p)).
Qed.
Theorem C37_find_char : forall s ch pos ic,
  match tx_find_ch s ch pos ic with
  | Some p => pos <= p /\ option_map (fold ic) (at_pos s p) = Some (fold ic ch)
              /\ forall q, pos <= q -> q < p -> option_map (fold ic) (at_pos s q) <> Some (fold ic ch)
  | None => forall q, pos <= q -> option_map (fold ic) (at_pos s q) <> Some (fold ic ch)
  end.
Proof.
  intros s ch pos ic.
  assert (G : tx_find_ch s ch pos ic = find_from (head_in (N.eqb (fold ic ch))) (if ic then make_lower s else s) pos)
    by (destruct ic; reflexivity).
  rewrite G. pose proof (find_if_spec (N.eqb (fold ic ch)) (if ic then make_lower s else s) pos) as H.
  destruct (find_from _ _ _) as [p|].
  - destruct H as (H1 & (c & Hc & E) & H2). rewrite at_pos_fold in Hc. apply N.eqb_eq in E. subst c.
    split; [assumption|]. split; [assumption|]. intros q Hq1 Hq2 C. rewrite <- at_pos_fold in C.
    specialize (H2 q _ Hq1 Hq2 C). now rewrite N.eqb_refl in H2.
  - intros q Hq C. rewrite <- at_pos_fold in C. specialize (H q _ Hq C). now rewrite N.eqb_refl in H.
Qed.
Theorem C37_reverse_find_char : forall s ch pos ic,
  match tx_rfind_ch s ch pos ic with
  | Some p => p <= pos /\ option_map (fold ic) (at_pos s p) = Some (fold ic ch)
              /\ forall q, q <= pos -> p < q -> option_map (fold ic) (at_pos s q) <> Some (fold ic ch)
  | None => forall q, q <= pos -> option_map (fold ic) (at_pos s q) <> Some (fold ic ch)
  end.
Proof.
  intros s ch pos ic.
  assert (G : tx_rfind_ch s ch pos ic = ustr_rfind_if (N.eqb (fold ic ch)) (if ic then make_lower s else s) pos)
    by (destruct ic; reflexivity).
  rewrite G. pose proof (rfind_if_spec (N.eqb (fold ic ch)) (if ic then make_lower s else s) pos) as H.
  destruct (ustr_rfind_if _ _ _) as [p|].
  - destruct H as (H1 & (c & Hc & E) & H2). rewrite at_pos_fold in Hc. apply N.eqb_eq in E. subst c.
    split; [assumption|]. split; [assumption|]. intros q Hq1 Hq2 C. rewrite <- at_pos_fold in C.
    specialize (H2 q _ Hq1 Hq2 C). now rewrite N.eqb_refl in H2.
  - intros q Hq C. rewrite <- at_pos_fold in C. specialize (H q _ Hq C). now rewrite N.eqb_refl in H.
Qed.
(** The four character-set searches; [inside = true] for ...OneOf, [false] for ...NotOneOf. *)
Definition set_hit (inside : bool) (set : list N) (c : N) : Prop := if inside then In c set else ~ In c set.
Theorem C37_one_of : forall s set pos (inside : bool),
  match (if inside then find_one_of s set pos else find_not_one_of s set pos) with
  | Some p => pos <= p /\ (exists c, at_pos s p = Some c /\ set_hit inside set c)
              /\ forall q c, pos <= q -> q < p -> at_pos s q = Some c -> ~ set_hit inside set c
  | None => forall q c, pos <= q -> at_pos s q = Some c -> ~ set_hit inside set c
  end.
Proof.
  intros s set pos inside.
  set (P := fun c => if inside then mem set c else negb (mem set c)).
  assert (HP : forall c, P c = true <-> set_hit inside set c).
  { intros c. unfold P, set_hit. destruct inside; [apply mem_iff|]. rewrite <- mem_iff.
    destruct (mem set c); cbn; split; congruence. }
  assert (G : (if inside then find_one_of s set pos else find_not_one_of s set pos) = find_from (head_in P) s pos)
    by (destruct inside; reflexivity).
  rewrite G. pose proof (find_if_spec P s pos) as H. destruct (find_from _ _ _) as [p|].
  - destruct H as (H1 & (c & Hc & E) & H2). split; [assumption|]. split; [exists c; split; [assumption|now apply HP]|].
    intros q d Hq1 Hq2 Hd C. apply HP in C. specialize (H2 q d Hq1 Hq2 Hd). congruence.
  - intros q d Hq Hd C. apply HP in C. specialize (H q d Hq Hd). congruence.
Qed.
Theorem C37_reverse_one_of : forall s set pos (inside : bool),
  match (if inside then rfind_one_of s set pos else rfind_not_one_of s set pos) with
  | Some p => p <= pos /\ (exists c, at_pos s p = Some c /\ set_hit inside set c)
              /\ forall q c, q <= pos -> p < q -> at_pos s q = Some c -> ~ set_hit inside set c
  | None => forall q c, q <= pos -> at_pos s q = Some c -> ~ set_hit inside set c
  end.
Proof.
  intros s set pos inside.
  set (P := fun c => if inside then mem set c else negb (mem set c)).
  assert (HP : forall c, P c = true <-> set_hit inside set c).
  { intros c. unfold P, set_hit. destruct inside; [apply mem_iff|]. rewrite <- mem_iff.
    destruct (mem set c); cbn; split; congruence. }
  assert (G : (if inside then rfind_one_of s set pos else rfind_not_one_of s set pos) = ustr_rfind_if P s pos)
    by (destruct inside; reflexivity).
  rewrite G. pose proof (rfind_if_spec P s pos) as H. destruct (ustr_rfind_if _ _ _) as [p|].
  - destruct H as (H1 & (c & Hc & E) & H2). split; [assumption|]. split; [exists c; split; [assumption|now apply HP]|].
    intros q d Hq1 Hq2 Hd C. apply HP in C. specialize (H2 q d Hq1 Hq2 Hd). congruence.
  - intros q d Hq Hd C. apply HP in C. specialize (H q d Hq Hd). congruence.
Qed.
Theorem C37_ends_with : forall s suffix, ends_with s suffix = true <-> exists a, s = a ++ suffix.
Proof.
  intros s suffix. unfold ends_with, equal. rewrite andb_true_iff.
  set (r := slice (nlen s - nlen suffix) (nlen suffix) s). split.
  - intros [H1 H2]. destruct (ustr_compare r suffix) eqn:E; try discriminate. apply ustr_compare_eq in E.
    exists (firstn (N.to_nat (nlen s - nlen suffix)) s). transitivity (firstn (N.to_nat (nlen s - nlen suffix)) s ++ r); [|now rewrite E].
    assert (Er : r = skipn (N.to_nat (nlen s - nlen suffix)) s).
    { unfold r, slice. apply firstn_all2. rewrite skipn_length. unfold nlen in *. lia. }
    rewrite Er. now rewrite firstn_skipn.
  - intros [a Ea]. subst s. split; [rewrite nlen_app; lia|].
    assert (E : r = suffix).
    { unfold r, slice. rewrite nlen_app, N.add_sub, skipn_len_app. unfold nlen. rewrite Nat2N.id. apply firstn_all. }
    rewrite E. assert (Q : ustr_compare suffix suffix = Eq) by now apply ustr_compare_eq. now rewrite Q.
Qed.
Print Assumptions C37_find. Print Assumptions C37_reverse_find. Print Assumptions C37_find_char.
Print Assumptions C37_reverse_find_char. Print Assumptions C37_one_of. Print Assumptions C37_reverse_one_of.
Print Assumptions C37_ends_with.
Example C37_ex : tx_find (T"abcABC") (T"AB") 0 false = Some 3 /\ tx_find (T"abcABC") (T"AB") 0 true = Some 0
  /\ tx_rfind (T"abcabc") (T"ab") 2 false = Some 0 /\ tx_rfind (T"abcabc") (T"ab") npos false = Some 3
  /\ tx_find (T"abc") (T"bd") 0 false = None /\ find_one_of (T"a,b;c") (T";,") 2 = Some 3
  /\ tx_find_ch (T"aXx") 120 0 true = Some 1 /\ tx_rfind_ch (T"aXx") 88 npos false = Some 1.
Proof. repeat split. Qed.

(** C61. [operator<] is a strict weak ordering whose equivalence is [operator==], as std::map needs. *)
Theorem C61_ordering :
  (forall a, txlt a a = false)
  /\ (forall a b c, txlt a b = true -> txlt b c = true -> txlt a c = true)
  /\ (forall a b, txeq a b = true <-> txlt a b = false /\ txlt b a = false)
  /\ (forall a a' b b', txeq a a' = true -> txeq b b' = true -> txlt a b = txlt a' b').
Proof.
  unfold txlt, txeq, compare_no_case. split; [|split; [|split]].
  - intros a. assert (Q : ustr_compare (make_upper a) (make_upper a) = Eq) by now apply ustr_compare_eq. now rewrite Q.
  - intros a b c H1 H2.
    destruct (ustr_compare (make_upper a) (make_upper b)) eqn:E1; try discriminate.
    destruct (ustr_compare (make_upper b) (make_upper c)) eqn:E2; try discriminate.
    now rewrite (ustr_compare_lt_trans _ _ _ E1 E2).
  - intros a b. rewrite (ustr_compare_anti (make_upper a) (make_upper b)).
    destruct (ustr_compare (make_upper a) (make_upper b)); cbn; split; try tauto; try discriminate; intros [? ?]; discriminate.
  - intros a a' b b' H1 H2.
    destruct (ustr_compare (make_upper a) (make_upper a')) eqn:E1; try discriminate. apply ustr_compare_eq in E1.
    destruct (ustr_compare (make_upper b) (make_upper b')) eqn:E2; try discriminate. apply ustr_compare_eq in E2.
    now rewrite E1, E2.
Qed.
Print Assumptions C61_ordering.
Example C61_ex : txlt (T"Abc") (T"abd") = true /\ txlt (T"ab") (T"ABC") = true /\ txlt (T"ABC") (T"abc") = false.
Proof. repeat split. Qed.

(** C62. Copies into caller-supplied buffers stay within the stated size and hold a terminated prefix
    of the text. *)
Lemma upto_nul_prefix b : exists t, b = upto_nul b ++ t.
Proof.
  induction b as [|c b [t E]]; [now exists []|]. cbn [upto_nul]. destruct (c =? 0); [now exists (c :: b)|].
  exists t. cbn [app]. now rewrite <- E.
Qed.
Lemma upto_nul_length b : nlen (upto_nul b) <= nlen b.
Proof. destruct (upto_nul_prefix b) as [t E]. apply (f_equal nlen) in E. rewrite nlen_app in E. lia. Qed.
Lemma upto_nul_snoc b : upto_nul (b ++ [0]) = upto_nul b.
Proof. induction b as [|c b IH]; [reflexivity|]. cbn [app upto_nul]. destruct (c =? 0); [reflexivity|now rewrite IH]. Qed.

Theorem C62_char_buffer : forall cs size, Forall scalar cs ->
  exists cb, prepare_char_buffer size (enc16 cs) = Some cb
    /\ cb_data cb = enc8 cs ++ [0] /\ nlen (cb_data cb) <= cb_size cb /\ size <= cb_size cb.
Proof.
  intros cs size F. unfold prepare_char_buffer.
  assert (E : to_bytes (enc16 cs) = Some (enc8 cs)) by (apply to_bytes_iff; [now apply enc16_units|eauto]).
  rewrite E. eexists. split; [reflexivity|]. cbn [cb_data cb_size].
  pose proof (enc8_enc16_length cs) as L.
  rewrite firstn_all2.
  2:{ unfold nlen in *. destruct (size <? _) eqn:Es; lia. }
  split; [reflexivity|]. rewrite nlen_app, nlen_cons, nlen_nil. destruct (size <? _) eqn:Es; lia.
Qed.
Theorem C62_copy_into : forall cs n, Forall scalar cs -> 1 <= n ->
  exists r, copy_into_char (enc16 cs) n = Some (r ++ [0]) /\ nlen (r ++ [0]) <= n
    /\ (exists t, upto_nul (enc8 cs) = r ++ t /\ (t = [] \/ nlen (r ++ [0]) = n)).
Proof.
  intros cs n F Hn. unfold copy_into_char. replace (n =? 0) with false by lia.
  destruct (C62_char_buffer cs 0 F) as (cb & E & Ed & _). rewrite E. cbv zeta. rewrite Ed, upto_nul_snoc.
  set (b := upto_nul (enc8 cs)). eexists. split; [reflexivity|].
  destruct (n <=? nlen b) eqn:En.
  - assert (L : nlen (firstn (N.to_nat (n - 1)) b) = n - 1) by (unfold nlen in *; rewrite firstn_length; lia).
    rewrite nlen_app, nlen_cons, nlen_nil, L. split; [lia|]. exists (skipn (N.to_nat (n - 1)) b).
    rewrite firstn_skipn. split; [reflexivity|right; lia].
  - assert (L : firstn (N.to_nat (nlen b)) b = b) by (unfold nlen; rewrite Nat2N.id; apply firstn_all).
    rewrite L, nlen_app, nlen_cons, nlen_nil. split; [lia|]. exists []. rewrite app_nil_r. split; [reflexivity|now left].
Qed.
Theorem C62_copy_into_pascal : forall cs n, Forall scalar cs -> 1 <= n ->
  exists r, copy_into_pascal (enc16 cs) n = Some (nlen r :: r) /\ nlen (nlen r :: r) <= n /\ nlen r <= 255
    /\ exists t, upto_nul (enc8 cs) = r ++ t.
Proof.
  intros cs n F Hn. unfold copy_into_pascal. replace (n =? 0) with false by lia.
  destruct (C62_char_buffer cs 0 F) as (cb & E & Ed & _). rewrite E. cbv zeta. rewrite Ed, upto_nul_snoc.
  set (b := upto_nul (enc8 cs)).
  set (len := if 255 <? (if n - 1 <? nlen b then n - 1 else nlen b) then 255 else (if n - 1 <? nlen b then n - 1 else nlen b)).
  assert (Hl : len <= nlen b /\ len <= n - 1 /\ len <= 255).
  { unfold len. destruct (n - 1 <? nlen b) eqn:?; destruct (255 <? _) eqn:?; lia. }
  clearbody len. exists (firstn (N.to_nat len) b).
  assert (L : nlen (firstn (N.to_nat len) b) = len) by (unfold nlen in *; rewrite firstn_length; lia).
  rewrite nlen_cons, L. split; [reflexivity|]. split; [lia|]. split; [lia|].
  exists (skipn (N.to_nat len) b). now rewrite firstn_skipn.
Qed.
Theorem C62_copy_into_units : forall s n, 1 <= n ->
  exists r t, copy_into_ucchar s n = r ++ [0] /\ nlen (r ++ [0]) <= n /\ s = r ++ t /\ (t = [] \/ nlen (r ++ [0]) = n).
Proof.
  intros s n Hn. unfold copy_into_ucchar. replace (n =? 0) with false by lia. destruct (nlen s <? n) eqn:E.
  - exists s, []. split; [reflexivity|]. split; [rewrite nlen_app, nlen_cons, nlen_nil; lia|].
    split; [now rewrite app_nil_r|now left].
  - exists (firstn (N.to_nat (n - 1)) s), (skipn (N.to_nat (n - 1)) s). rewrite firstn_skipn.
    assert (L : nlen (firstn (N.to_nat (n - 1)) s) = n - 1) by (unfold nlen in *; rewrite firstn_length; lia).
    assert (L2 : nlen (firstn (N.to_nat (n - 1)) s ++ [0]) = n) by (rewrite nlen_app, L; change (nlen [0]) with 1; lia).
    rewrite L2. split; [reflexivity|]. split; [lia|]. split; [reflexivity|now right].
Qed.
Print Assumptions C62_char_buffer. Print Assumptions C62_copy_into. Print Assumptions C62_copy_into_pascal.
Print Assumptions C62_copy_into_units.
Example C62_ex : copy_into_char (T"hello") 4 = Some (T"hel" ++ [0]) /\ copy_into_char (T"hi") 4 = Some (T"hi" ++ [0])
  /\ copy_into_pascal (T"hello") 4 = Some (3 :: T"hel") /\ copy_into_ucchar (T"hello") 3 = T"he" ++ [0].
Proof. repeat split. Qed.
(** The units copy can end in half a character although the text is well-formed. *)
Theorem C62_copy_splits_character_refuted : exists s n, wf16 s /\ ~ wf16 (removelast (copy_into_ucchar s n)).
Proof.
  exists [55357; 56832], 2. split.
  - exists [128512]. split; [repeat constructor; unfold scalar; lia|reflexivity].
  - change (removelast (copy_into_ucchar [55357; 56832] 2)) with [55357]. intros (cs & F & E).
    pose proof (dec16_enc cs F) as D. rewrite <- E in D. discriminate.
Qed.
Print Assumptions C62_copy_splits_character_refuted.

(** C63. Trim removes exactly the blanks and tabs at both ends. *)
Theorem C63_trim : forall s, nlen s < two64 ->
  exists a b, s = a ++ trim s ++ b /\ Forall blank a /\ Forall blank b
    /\ (trim s <> [] -> ~ blank (hd 0 (trim s)) /\ ~ blank (last (trim s) 0)).
Proof. exact trim_spec. Qed.
Print Assumptions C63_trim.
Example C63_ex : trim (T"  a b  ") = T"a b" /\ trim (T"   ") = [] /\ trim (9 :: T"x") = T"x".
Proof. repeat split. Qed.
