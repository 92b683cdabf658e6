(** Substrings of well-formed text, and trimming. *)
From Coq Require Import List NArith ZArith Lia Bool.
From Coq Require Import ZifyN ZifyNat ZifyBool.
From Verif Require Import Bytes BytesProofs UtfSpec UtfModel UtfProofs StringModel StringSpec StringProofs.
Import ListNotations.
Open Scope N_scope.
Ltac Zify.zify_post_hook ::= Z.div_mod_to_equations.

Lemma enc16_1_pair c : 65536 <= c -> exists h l, enc16_1 c = [h; l].
Proof. intros H. unfold enc16_1. replace (c <? 65536) with false by lia. eauto. Qed.
Lemma enc16_nil : enc16 [] = []. Proof. reflexivity. Qed.

(** Every cut position is a character boundary or lies inside a surrogate pair. *)
Lemma cut : forall cs n, n <= nlen (enc16 cs) ->
  exists x y, cs = x ++ y /\ (n = nlen (enc16 x) \/
    exists c y', y = c :: y' /\ 65536 <= c /\ n = nlen (enc16 x) + 1).
Proof.
  induction cs as [|c cs IH]; intros n L.
  - exists [], []. split; [reflexivity|]. left. rewrite enc16_nil, nlen_nil in *. lia.
  - rewrite enc16_cons, nlen_app, enc16_1_length in L. destruct (N.eq_dec n 0) as [->|Hn].
    { exists [], (c :: cs). split; [reflexivity|]. now left. }
    destruct (c <? 65536) eqn:Ec.
    + destruct (IH (n - 1)) as (x & y & -> & H); [lia|]. exists (c :: x), y. split; [reflexivity|].
      rewrite enc16_cons, nlen_app, enc16_1_length, Ec. destruct H as [H|(d & y' & E & Hd & H)]; [left; lia|].
      right. exists d, y'. repeat split; [assumption..|lia].
    + destruct (N.eq_dec n 1) as [->|].
      { exists [], (c :: cs). split; [reflexivity|]. right. exists c, cs. rewrite enc16_nil, nlen_nil. repeat split; lia. }
      destruct (IH (n - 2)) as (x & y & -> & H); [lia|]. exists (c :: x), y. split; [reflexivity|].
      rewrite enc16_cons, nlen_app, enc16_1_length, Ec. destruct H as [H|(d & y' & E & Hd & H)]; [left; lia|].
      right. exists d, y'. repeat split; [assumption..|lia].
Qed.

Lemma last_app1 {A} (a : list A) x d : last (a ++ [x]) d = x.
Proof. apply last_last. Qed.

Lemma trim_right_enc cs : Forall scalar cs -> trim_right_invalid (enc16 cs) = enc16 cs.
Proof.
  intros F. destruct cs as [|c0 cs0] eqn:Ecs; [reflexivity|]. rewrite <- Ecs in *.
  assert (Hne : cs <> []) by (rewrite Ecs; discriminate). clear Ecs.
  destruct (exists_last Hne) as (cs' & c & ->). apply Forall_app in F as [_ F]. inversion_clear F as [|? ? Hs _].
  unfold trim_right_invalid. rewrite enc16_app, enc16_cons, enc16_nil, app_nil_r. unfold enc16_1, scalar in *.
  assert (L : forall l : list N, match l with [] => [] | _ :: _ => l end = l) by (now intros []).
  destruct (c <? 65536) eqn:Ec.
  - rewrite last_app1. replace (_ && _) with false by lia. apply L.
  - change [55296 + (c - 65536) / 1024; 56320 + (c - 65536) mod 1024]
      with ([55296 + (c - 65536) / 1024] ++ [56320 + (c - 65536) mod 1024]).
    rewrite app_assoc, last_app1. replace (_ && _) with false by lia. apply L.
Qed.
Lemma trim_right_high a h : 55296 <= h <= 56319 -> trim_right_invalid (a ++ [h]) = a.
Proof.
  intros H. unfold trim_right_invalid. rewrite last_app1, removelast_last.
  replace (_ && _) with true by lia. destruct (a ++ [h]) eqn:E; [|reflexivity].
  now apply app_eq_nil in E as [-> _].
Qed.
Lemma trim_left_enc cs : Forall scalar cs -> trim_left_invalid (enc16 cs) = enc16 cs.
Proof.
  intros F. destruct cs as [|c cs]; [reflexivity|]. inversion_clear F as [|? ? Hs _].
  rewrite enc16_cons. unfold enc16_1, scalar in *. unfold trim_left_invalid. destruct (c <? 65536) eqn:Ec; cbn [app].
  - replace (_ && _) with false by lia. reflexivity.
  - replace (_ && _) with false by lia. reflexivity.
Qed.
Lemma trim_left_low l r : 56320 <= l <= 57343 -> trim_left_invalid (l :: r) = r.
Proof. intros H. unfold trim_left_invalid. replace (_ && _) with true by lia. reflexivity. Qed.

Lemma pair_ranges c : scalar c -> 65536 <= c -> exists h l, enc16_1 c = [h; l] /\ 55296 <= h <= 56319 /\ 56320 <= l <= 57343.
Proof.
  intros Hs H. unfold scalar, enc16_1 in *. replace (c <? 65536) with false by lia.
  eexists. eexists. split; [reflexivity|]. lia.
Qed.

Lemma enc16_snoc_length x c : nlen (enc16 x) < nlen (enc16 (x ++ [c])).
Proof. rewrite enc16_app, enc16_cons, enc16_nil, app_nil_r, nlen_app, enc16_1_length. destruct (_ <? _); lia. Qed.

Lemma first_trim cs n : Forall scalar cs ->
  fits_left cs n (trim_right_invalid (firstn (N.to_nat n) (enc16 cs))).
Proof.
  intros F. destruct (N.lt_ge_cases (nlen (enc16 cs)) n) as [H|H].
  - exists cs, []. rewrite app_nil_r. split; [reflexivity|]. split.
    + rewrite firstn_all2 by (unfold nlen in H; lia). now apply trim_right_enc.
    + split; [lia|]. discriminate.
  - destruct (cut cs n H) as (x & y & -> & D). apply Forall_app in F as [Fx Fy]. exists x, y. split; [reflexivity|].
    destruct D as [->|(c & y' & -> & Hc & ->)].
    + rewrite enc16_app, firstn_len_app. split; [now apply trim_right_enc|]. split; [lia|].
      intros c y' _. apply enc16_snoc_length.
    + inversion_clear Fy as [|? ? Hs _]. destruct (pair_ranges c Hs Hc) as (h & l & Ep & Hh & Hl).
      split.
      * rewrite enc16_app, enc16_cons, Ep. cbn [app].
        replace (enc16 x ++ h :: l :: enc16 y') with ((enc16 x ++ [h]) ++ l :: enc16 y') by (now rewrite <- app_assoc).
        replace (nlen (enc16 x) + 1) with (nlen (enc16 x ++ [h])) by (rewrite nlen_app, nlen_cons, nlen_nil; lia).
        rewrite firstn_len_app. now apply trim_right_high.
      * split; [lia|]. intros d z [= <- <-]. rewrite enc16_app, enc16_cons, enc16_nil, app_nil_r, nlen_app, enc16_1_length.
        replace (c <? 65536) with false by lia. lia.
Qed.

Lemma left_fits cs n : Forall scalar cs -> fits_left cs n (left (enc16 cs) n).
Proof. intros F. unfold left, substr. cbn [skipn N.to_nat]. change (N.to_nat 0) with 0%nat. cbn [skipn]. now apply first_trim. Qed.
Lemma truncate_fits cs n : Forall scalar cs -> fits_left cs n (truncate (enc16 cs) n).
Proof.
  intros F. unfold truncate. destruct (n <? nlen (enc16 cs)) eqn:E; [now apply first_trim|].
  exists cs, []. rewrite app_nil_r. repeat split; [lia|discriminate].
Qed.

Lemma enc16_cons_length c y : nlen (enc16 y) < nlen (enc16 (c :: y)).
Proof. rewrite enc16_cons, nlen_app, enc16_1_length. destruct (_ <? _); lia. Qed.

Lemma skip_trim cs p : Forall scalar cs -> p <= nlen (enc16 cs) ->
  exists x y, cs = x ++ y /\ p <= nlen (enc16 x)
    /\ (forall x' c, x = x' ++ [c] -> nlen (enc16 x') < p)
    /\ (skipn (N.to_nat p) (enc16 cs) = enc16 y /\ p = nlen (enc16 x)
        \/ exists l, 56320 <= l <= 57343 /\ skipn (N.to_nat p) (enc16 cs) = l :: enc16 y /\ p + 1 = nlen (enc16 x)).
Proof.
  intros F L. destruct (cut cs p L) as (x & y & -> & D). apply Forall_app in F as [Fx Fy].
  destruct D as [->|(c & y' & -> & Hc & ->)].
  - exists x, y. split; [reflexivity|]. split; [lia|]. split.
    + intros x' c ->. apply enc16_snoc_length.
    + left. rewrite enc16_app, skipn_len_app. split; reflexivity.
  - inversion_clear Fy as [|? ? Hs _]. destruct (pair_ranges c Hs Hc) as (h & l & Ep & Hh & Hl).
    exists (x ++ [c]), y'. split; [now rewrite <- app_assoc|].
    assert (Lx : nlen (enc16 (x ++ [c])) = nlen (enc16 x) + 2).
    { rewrite enc16_app, enc16_cons, enc16_nil, app_nil_r, nlen_app, enc16_1_length. replace (c <? 65536) with false by lia. lia. }
    split; [lia|]. split.
    + intros x' d E. apply app_inj_tail in E as [-> ->]. lia.
    + right. exists l. split; [assumption|]. split; [|lia].
      rewrite enc16_app, enc16_cons, Ep. cbn [app].
      replace (enc16 x ++ h :: l :: enc16 y') with ((enc16 x ++ [h]) ++ l :: enc16 y') by (now rewrite <- app_assoc).
      replace (nlen (enc16 x) + 1) with (nlen (enc16 x ++ [h])) by (rewrite nlen_app, nlen_cons, nlen_nil; lia).
      now rewrite skipn_len_app.
Qed.

Lemma right_fits cs n : Forall scalar cs -> fits_right cs n (right (enc16 cs) n).
Proof.
  intros F. unfold right. destruct (nlen (enc16 cs) <=? n) eqn:E.
  { exists [], cs. split; [reflexivity|]. split; [reflexivity|]. split; [lia|]. intros x' c H. now destruct x'. }
  destruct (skip_trim cs (nlen (enc16 cs) - n) F) as (x & y & Ec & H1 & H2 & H3); [lia|].
  exists x, y. split; [assumption|].
  assert (Lc : nlen (enc16 cs) = nlen (enc16 x) + nlen (enc16 y)) by (rewrite Ec, enc16_app, nlen_app; reflexivity).
  assert (Fy : Forall scalar y) by (rewrite Ec in F; now apply Forall_app in F).
  split.
  - destruct H3 as [[-> _]|(l & Hl & -> & _)]; [now apply trim_left_enc|now apply trim_left_low].
  - split; [lia|]. intros x' c ->. specialize (H2 x' c eq_refl).
    rewrite enc16_app, enc16_cons, enc16_nil, app_nil_r, nlen_app in Lc. rewrite enc16_cons, nlen_app. lia.
Qed.

Lemma mid_fits cs p n : Forall scalar cs -> p < nlen (enc16 cs) -> fits_mid cs p n (mid (enc16 cs) p n).
Proof.
  intros F Hp. unfold mid. replace (_ <=? p) with false by lia. unfold substr, trim_invalid.
  destruct (skip_trim cs p F) as (x & y & -> & H1 & H2 & H3); [lia|].
  apply Forall_app in F as [Fx Fy]. destruct H3 as [[E Ep]|(l & Hl & E & Ep)]; rewrite E.
  - destruct (first_trim y n Fy) as (y1 & z & -> & Er & Ln & Hz).
    assert (Etl : trim_left_invalid (firstn (N.to_nat n) (enc16 (y1 ++ z))) = firstn (N.to_nat n) (enc16 (y1 ++ z))).
    { destruct (y1 ++ z) as [|c w] eqn:Ec; [now rewrite firstn_nil|]. inversion_clear Fy as [|? ? Hs _].
      rewrite enc16_cons. unfold enc16_1, scalar in *. destruct (N.to_nat n) as [|k]; [reflexivity|].
      destruct (c <? 65536) eqn:?; cbn [app firstn trim_left_invalid]; replace (_ && _) with false by lia; reflexivity. }
    rewrite Etl, Er. exists x, y1, z. split; [reflexivity|]. split; [reflexivity|]. split; [lia|].
    split; [assumption|]. split.
    + intros _. rewrite enc16_app, nlen_app. lia.
    + intros c z' ->. specialize (Hz c z' eq_refl). rewrite enc16_app, nlen_app. lia.
  - destruct (N.to_nat n) as [|k] eqn:En.
    { cbn [firstn]. exists x, [], y. split; [reflexivity|]. split; [reflexivity|]. split; [lia|]. split; [assumption|].
      split; [congruence|]. intros c z' ->. cbn [app]. pose proof (enc16_snoc_length x c). lia. }
    cbn [firstn]. rewrite trim_left_low by assumption.
    destruct (first_trim y (n - 1) Fy) as (y1 & z & -> & Er & Ln & Hz).
    replace (N.to_nat (n - 1)) with k in Er by lia. rewrite Er.
    exists x, y1, z. split; [reflexivity|]. split; [reflexivity|]. split; [lia|]. split; [assumption|]. split.
    + intros _. rewrite enc16_app, nlen_app. lia.
    + intros c z' ->. specialize (Hz c z' eq_refl). rewrite enc16_app, nlen_app. lia.
Qed.

(** ** Trimming blanks *)
Lemma mem_blanks c : mem blanks c = true <-> blank c.
Proof. rewrite mem_iff. unfold blanks, blank. cbn [In]. intuition congruence. Qed.

Lemma Forall_at (P : N -> Prop) s : (forall q c, at_pos s q = Some c -> P c) -> Forall P s.
Proof.
  intros H. apply Forall_forall. intros c Hc. apply In_nth_error in Hc as [k Hk].
  apply (H (N.of_nat k) c). unfold at_pos. now rewrite Nat2N.id.
Qed.

Lemma at_pos_split s p c : at_pos s p = Some c ->
  s = firstn (N.to_nat p) s ++ c :: skipn (N.to_nat (p + 1)) s.
Proof.
  intros H. unfold at_pos in H. apply nth_error_split in H as (a & b & -> & L).
  rewrite <- L, firstn_app, firstn_all, Nat.sub_diag. cbn [firstn]. rewrite app_nil_r.
  replace (N.to_nat (p + 1)) with (length a + 1)%nat by lia.
  now rewrite skipn_app, skipn_all2, Nat.add_comm, Nat.add_sub by lia.
Qed.

Lemma trim_left_spec s : exists a, s = a ++ trim_left s /\ Forall blank a
  /\ match trim_left s with [] => True | c :: _ => ~ blank c end.
Proof.
  unfold trim_left, find_not_one_of. pose proof (find_if_spec (fun c => negb (mem blanks c)) s 0) as H.
  destruct (find_from _ _ _) as [p|].
  - destruct H as (_ & (c & Hc & E) & Hq). exists (firstn (N.to_nat p) s). split; [now rewrite firstn_skipn|].
    split.
    + apply Forall_at. intros q d Hd. pose proof (at_pos_lt _ _ _ Hd) as Lq. pose proof (at_pos_lt _ _ _ Hc).
      unfold nlen in Lq. rewrite firstn_length in Lq.
      assert (K : at_pos s q = Some d).
      { rewrite <- (firstn_skipn (N.to_nat p) s). rewrite at_pos_app1; [assumption|]. unfold nlen. rewrite firstn_length. lia. }
      specialize (Hq q d ltac:(lia) ltac:(lia) K). apply mem_blanks. now destruct (mem blanks d).
    + assert (Hr : skipn (N.to_nat p) s = c :: skipn (N.to_nat (p + 1)) s).
      { unfold at_pos in Hc. apply nth_error_split in Hc as (a & b & -> & L).
        rewrite <- L, skipn_app, skipn_all, Nat.sub_diag. cbn [app skipn].
        replace (N.to_nat (p + 1)) with (length a + 1)%nat by lia.
        rewrite skipn_app, skipn_all2 by lia. now rewrite Nat.add_comm, Nat.add_sub. }
      rewrite Hr. rewrite <- mem_blanks. now destruct (mem blanks c).
  - exists s. rewrite app_nil_r. split; [reflexivity|]. split; [|exact I].
    apply Forall_at. intros q d Hd. specialize (H q d ltac:(lia) Hd). apply mem_blanks. now destruct (mem blanks d).
Qed.

Lemma trim_right_spec s : nlen s < two64 -> exists b, s = trim_right s ++ b /\ Forall blank b
  /\ (trim_right s <> [] -> ~ blank (last (trim_right s) 0)).
Proof.
  intros Ls. unfold trim_right, rfind_not_one_of. pose proof (rfind_if_spec (fun c => negb (mem blanks c)) s npos) as H.
  destruct (ustr_rfind_if _ _ _) as [p|].
  - destruct H as (_ & (c & Hc & E) & Hq). exists (skipn (N.to_nat (p + 1)) s). split; [now rewrite firstn_skipn|].
    pose proof (at_pos_lt _ _ _ Hc) as Lp. split.
    + apply Forall_at. intros q d Hd.
      assert (K : at_pos s (p + 1 + q) = Some d).
      { rewrite <- (firstn_skipn (N.to_nat (p + 1)) s).
        replace (p + 1) with (nlen (firstn (N.to_nat (p + 1)) s)) at 3.
        2:{ unfold nlen in *. rewrite firstn_length. lia. }
        rewrite at_pos_app2. assumption. }
      pose proof (at_pos_lt _ _ _ K).
      specialize (Hq (p + 1 + q) d ltac:(unfold npos in *; lia) ltac:(lia) K).
      apply mem_blanks. now destruct (mem blanks d).
    + intros _. assert (Ef : firstn (N.to_nat (p + 1)) s = firstn (N.to_nat p) s ++ [c]).
      { pose proof (at_pos_split _ _ _ Hc) as Hs. rewrite Hs at 1.
        assert (L : length (firstn (N.to_nat p) s) = N.to_nat p) by (rewrite firstn_length; unfold nlen in Lp; lia).
        rewrite firstn_app, L. replace (N.to_nat (p + 1) - N.to_nat p)%nat with 1%nat by lia. cbn [firstn].
        f_equal. apply firstn_all2. lia. }
      rewrite Ef, last_app1, <- mem_blanks. now destruct (mem blanks c).
  - exists s. split; [reflexivity|]. split; [|congruence].
    apply Forall_at. intros q d Hd. pose proof (at_pos_lt _ _ _ Hd).
    specialize (H q d ltac:(unfold npos in *; lia) Hd). apply mem_blanks. now destruct (mem blanks d).
Qed.

Lemma trim_spec s : nlen s < two64 -> exists a b, s = a ++ trim s ++ b /\ Forall blank a /\ Forall blank b
  /\ (trim s <> [] -> ~ blank (hd 0 (trim s)) /\ ~ blank (last (trim s) 0)).
Proof.
  intros L. unfold trim. destruct (trim_left_spec s) as (a & Ea & Fa & Ha).
  assert (L2 : nlen (trim_left s) < two64) by (apply (f_equal nlen) in Ea; rewrite nlen_app in Ea; lia).
  destruct (trim_right_spec (trim_left s) L2) as (b & Eb & Fb & Hb).
  exists a, b. rewrite <- Eb. repeat split; [assumption..| |auto].
  destruct (trim_right (trim_left s)) as [|c r] eqn:E; [congruence|]. cbn [hd].
  rewrite Eb in Ha. exact Ha.
Qed.
