(** Proofs about [TXString]. *)
From Coq Require Import List NArith ZArith Lia Bool.
From Coq Require Import ZifyN ZifyNat ZifyBool.
From Verif Require Import Bytes BytesProofs UtfSpec UtfModel UtfProofs StringModel StringSpec.
Import ListNotations.
Open Scope N_scope.
Ltac Zify.zify_post_hook ::= Z.div_mod_to_equations.

(** ** Comparison *)
Lemma ustr_compare_eq : forall a b, ustr_compare a b = Eq <-> a = b.
Proof.
  induction a as [|x a IH]; intros [|y b]; cbn [ustr_compare]; split; intros E; try discriminate; try reflexivity.
  - destruct (N.compare_spec x y); try discriminate. subst. f_equal. now apply IH.
  - injection E as -> ->. rewrite N.compare_refl. now apply IH.
Qed.
Lemma ustr_compare_anti : forall a b, ustr_compare b a = CompOpp (ustr_compare a b).
Proof.
  induction a as [|x a IH]; intros [|y b]; cbn [ustr_compare]; try reflexivity.
  rewrite (N.compare_antisym x y). destruct (x ?= y); cbn [CompOpp]; [apply IH|reflexivity..].
Qed.
Lemma ustr_compare_lt_trans : forall a b c,
  ustr_compare a b = Lt -> ustr_compare b c = Lt -> ustr_compare a c = Lt.
Proof.
  induction a as [|x a IH]; intros [|y b] [|z c]; cbn [ustr_compare]; try discriminate; try reflexivity.
  destruct (N.compare_spec x y); destruct (N.compare_spec y z); try discriminate;
    intros H1 H2; destruct (N.compare_spec x z); try reflexivity; try lia.
  now apply (IH b).
Qed.

Lemma txeq_iff a b : txeq a b = true <-> make_upper a = make_upper b.
Proof.
  unfold txeq, compare_no_case. rewrite <- ustr_compare_eq.
  destruct (ustr_compare (make_upper a) (make_upper b)); split; congruence.
Qed.
Lemma upper_lower_1 x y : to_upper x = to_upper y <-> to_lower x = to_lower y.
Proof.
  unfold to_upper, to_lower.
  destruct ((97 <=? x) && (x <=? 122)) eqn:?; destruct ((97 <=? y) && (y <=? 122)) eqn:?;
  destruct ((65 <=? x) && (x <=? 90)) eqn:?; destruct ((65 <=? y) && (y <=? 90)) eqn:?; lia.
Qed.
Lemma upper_lower : forall a b, make_upper a = make_upper b <-> make_lower a = make_lower b.
Proof.
  unfold make_upper, make_lower.
  induction a as [|x a IH]; intros [|y b]; cbn [map]; split; intros E; try discriminate; try reflexivity;
    injection E as E1 E2; f_equal; try (now apply upper_lower_1); now apply IH.
Qed.
Lemma txeq_lower a b : txeq a b = true <-> make_lower a = make_lower b.
Proof. rewrite txeq_iff. apply upper_lower. Qed.

(** ** Searching *)
Lemma scan_some : forall P l i p, scan P l i = Some p ->
  exists k, p = i + N.of_nat k /\ (k <= length l)%nat /\ P (skipn k l) = true
    /\ forall j, (j < k)%nat -> P (skipn j l) = false.
Proof.
  intros P. induction l as [|x l IH]; intros i p; cbn [scan]; destruct (P _) eqn:E; try discriminate.
  - intros [= <-]. exists 0%nat. cbn. repeat split; [lia|lia|assumption|lia].
  - intros [= <-]. exists 0%nat. cbn [skipn length]. repeat split; [lia|lia|assumption|lia].
  - intros H. apply IH in H as (k & -> & L & Hk & Hj). exists (S k). cbn [skipn length].
    repeat split; [lia|lia|assumption|]. intros [|j] ?; [exact E|]. cbn [skipn]. apply Hj. lia.
Qed.
Lemma scan_none : forall P l i, scan P l i = None ->
  forall k, (k <= length l)%nat -> P (skipn k l) = false.
Proof.
  intros P. induction l as [|x l IH]; intros i; cbn [scan]; destruct (P _) eqn:E; try discriminate.
  - intros _ k L. destruct k; [exact E|cbn in L; lia].
  - intros H k L. destruct k as [|k]; [exact E|]. cbn [skipn length] in *. apply (IH _ H). lia.
Qed.

Lemma skipn_skipn' {A} (a b : nat) (l : list A) : skipn a (skipn b l) = skipn (b + a) l.
Proof.
  revert l. induction b as [|b IH]; intros l; [reflexivity|].
  destruct l; [now rewrite !skipn_nil|]. cbn [skipn Nat.add]. apply IH.
Qed.

Definition rest_at (s : list N) (p : N) : list N := skipn (N.to_nat p) s.

Lemma find_from_some P s pos p : find_from P s pos = Some p ->
  pos <= p <= nlen s /\ P (rest_at s p) = true
  /\ forall q, pos <= q -> q < p -> P (rest_at s q) = false.
Proof.
  unfold find_from, rest_at. destruct (nlen s <? pos) eqn:E; [discriminate|]. intros H.
  apply scan_some in H as (k & -> & L & Hk & Hj). rewrite skipn_length in L. unfold nlen in *.
  rewrite skipn_skipn' in Hk. split; [lia|]. split.
  - rewrite <- Hk. do 2 f_equal. lia.
  - intros q H1 H2. specialize (Hj (N.to_nat (q - pos)) ltac:(lia)). rewrite skipn_skipn' in Hj.
    rewrite <- Hj. do 2 f_equal. lia.
Qed.
Lemma find_from_none P s pos : find_from P s pos = None ->
  forall q, pos <= q -> q <= nlen s -> P (rest_at s q) = false.
Proof.
  unfold find_from, rest_at. intros H q H1 H2.
  destruct (nlen s <? pos) eqn:E; [lia|].
  pose proof (scan_none _ _ _ H (N.to_nat (q - pos))) as K. rewrite skipn_length in K.
  unfold nlen in *. specialize (K ltac:(lia)). rewrite skipn_skipn' in K. rewrite <- K. do 2 f_equal. lia.
Qed.
Lemma rscan_some : forall P s i p, rscan P s i = Some p ->
  p <= N.of_nat i /\ P (rest_at s p) = true
  /\ forall q, p < q -> q <= N.of_nat i -> P (rest_at s q) = false.
Proof.
  intros P s. unfold rest_at. induction i as [|i IH]; intros p; cbn [rscan]; destruct (P _) eqn:E; try discriminate.
  - intros [= <-]. split; [lia|]. split; [exact E|]. lia.
  - intros [= <-]. split; [lia|]. split; [|lia]. rewrite <- E. do 2 f_equal. lia.
  - intros H. apply IH in H as (H1 & H2 & H3). split; [lia|]. split; [assumption|].
    intros q Hq1 Hq2. destruct (N.eq_dec q (N.of_nat (S i))) as [->|].
    + rewrite Nat2N.id. exact E.
    + apply H3; lia.
Qed.
Lemma rscan_none : forall P s i, rscan P s i = None ->
  forall q, q <= N.of_nat i -> P (rest_at s q) = false.
Proof.
  intros P s. unfold rest_at. induction i as [|i IH]; cbn [rscan]; destruct (P _) eqn:E; try discriminate.
  - intros _ q Hq. replace q with 0 by lia. exact E.
  - intros H q Hq. destruct (N.eq_dec q (N.of_nat (S i))) as [->|].
    + rewrite Nat2N.id. exact E.
    + apply IH; [assumption|lia].
Qed.

Lemma is_prefix_iff : forall sub l, is_prefix sub l = true <-> exists t, l = sub ++ t.
Proof.
  induction sub as [|x sub IH]; intros l; cbn [is_prefix app].
  - split; [eauto|reflexivity].
  - destruct l as [|y l]; [split; [discriminate|now intros [t [=]]]|].
    rewrite andb_true_iff, IH, N.eqb_eq. split.
    + intros [-> [t ->]]. eauto.
    + intros [t [= -> ->]]. eauto.
Qed.
Lemma is_prefix_false sub l : is_prefix sub l = false <-> ~ exists t, l = sub ++ t.
Proof. rewrite <- is_prefix_iff. destruct (is_prefix sub l); split; congruence. Qed.

Lemma map_app_inv {A B} (f : A -> B) : forall (l : list A) (x y : list B), map f l = x ++ y ->
  exists l1 l2, l = l1 ++ l2 /\ map f l1 = x /\ map f l2 = y.
Proof.
  intros l x. revert l. induction x as [|b x IH]; intros l y E.
  - exists [], l. auto.
  - destruct l as [|a l]; [discriminate|]. injection E as Ea El. apply IH in El as (l1 & l2 & -> & <- & <-).
    exists (a :: l1), l2. cbn. now rewrite Ea.
Qed.

Lemma occ_rest f sub s p : p <= nlen s ->
  (is_prefix (map f sub) (rest_at (map f s) p) = true <-> occ f sub s p).
Proof.
  intros Hp. rewrite is_prefix_iff. unfold rest_at, occ. rewrite skipn_map. split.
  - intros [t E]. apply map_app_inv in E as (m & b & E & Em & Eb).
    exists (firstn (N.to_nat p) s), m, b. rewrite <- E, firstn_skipn. split; [reflexivity|].
    split; [|assumption]. unfold nlen in *. rewrite firstn_length. lia.
  - intros (a & m & b & -> & <- & Em). exists (map f b).
    unfold nlen. rewrite Nat2N.id, skipn_app, skipn_all2, Nat.sub_diag by lia. cbn [app skipn].
    now rewrite map_app, Em.
Qed.
Lemma occ_id sub s p : p <= nlen s ->
  (is_prefix sub (rest_at s p) = true <-> occ (fun c => c) sub s p).
Proof. intros H. rewrite <- (occ_rest (fun c => c)) by assumption. now rewrite !map_id. Qed.
Lemma occ_bound f sub s p : occ f sub s p -> p + nlen sub <= nlen s.
Proof.
  intros (a & m & b & -> & <- & E). apply (f_equal (@length N)) in E. rewrite !map_length in E.
  rewrite !nlen_app. unfold nlen in *. lia.
Qed.
Lemma nlen_map {A B} (f : A -> B) l : nlen (map f l) = nlen l.
Proof. unfold nlen. now rewrite map_length. Qed.

Lemma find_occ (ic : bool) s sub pos :
  match (if ic then ustr_find (make_lower s) (make_lower sub) pos else ustr_find s sub pos) with
  | Some p => pos <= p /\ occ (fold ic) sub s p /\ forall q, pos <= q -> q < p -> ~ occ (fold ic) sub s q
  | None => forall q, pos <= q -> ~ occ (fold ic) sub s q
  end.
Proof.
  assert (G : match ustr_find (map (fold ic) s) (map (fold ic) sub) pos with
  | Some p => pos <= p /\ occ (fold ic) sub s p /\ forall q, pos <= q -> q < p -> ~ occ (fold ic) sub s q
  | None => forall q, pos <= q -> ~ occ (fold ic) sub s q
  end).
  { unfold ustr_find. destruct (find_from _ _ pos) as [p|] eqn:E.
    - apply find_from_some in E as (H1 & H2 & H3). rewrite nlen_map in H1.
      split; [lia|]. split; [apply occ_rest; [lia|assumption]|].
      intros q Hq1 Hq2 C. specialize (H3 q Hq1 Hq2). apply occ_rest in C; [congruence|lia].
    - intros q Hq C. pose proof (occ_bound _ _ _ _ C).
      pose proof (find_from_none _ _ _ E q Hq) as H3. rewrite nlen_map in H3.
      apply occ_rest in C; [rewrite H3 in C by lia; discriminate|lia]. }
  destruct ic; [exact G|]. change (fold true) with to_lower in *; change (fold false) with (fun c : N => c) in *. rewrite !map_id in G. exact G.
Qed.

Lemma rfind_occ (ic : bool) s sub pos :
  match (if ic then ustr_rfind (make_lower s) (make_lower sub) pos else ustr_rfind s sub pos) with
  | Some p => p <= pos /\ occ (fold ic) sub s p /\ forall q, q <= pos -> p < q -> ~ occ (fold ic) sub s q
  | None => forall q, q <= pos -> ~ occ (fold ic) sub s q
  end.
Proof.
  assert (G : match ustr_rfind (map (fold ic) s) (map (fold ic) sub) pos with
  | Some p => p <= pos /\ occ (fold ic) sub s p /\ forall q, q <= pos -> p < q -> ~ occ (fold ic) sub s q
  | None => forall q, q <= pos -> ~ occ (fold ic) sub s q
  end).
  { unfold ustr_rfind. rewrite !nlen_map. destruct (nlen s <? nlen sub) eqn:L.
    { intros q Hq C. apply occ_bound in C. lia. }
    destruct (rscan _ _ _) as [p|] eqn:E.
    - apply rscan_some in E as (H1 & H2 & H3). rewrite N2Nat.id in *.
      split; [lia|]. split; [apply occ_rest; [lia|assumption]|].
      intros q Hq1 Hq2 C. pose proof (occ_bound _ _ _ _ C). specialize (H3 q Hq2 ltac:(lia)).
      apply occ_rest in C; [congruence|lia].
    - intros q Hq C. pose proof (occ_bound _ _ _ _ C).
      pose proof (rscan_none _ _ _ E q) as H3. rewrite N2Nat.id in *.
      apply occ_rest in C; [rewrite H3 in C by lia; discriminate|lia]. }
  destruct ic; [exact G|]. change (fold true) with to_lower in *; change (fold false) with (fun c : N => c) in *. rewrite !map_id in G. exact G.
Qed.

Lemma head_in_rest P s p : head_in P (rest_at s p) = match at_pos s p with Some c => P c | None => false end.
Proof.
  unfold rest_at, at_pos. generalize (N.to_nat p) as k. intros k. revert s.
  induction k as [|k IH]; intros [|c s]; cbn [skipn nth_error head_in]; try reflexivity. apply IH.
Qed.
Lemma at_pos_lt s p c : at_pos s p = Some c -> p < nlen s.
Proof. unfold at_pos, nlen. intros H. assert (K : nth_error s (N.to_nat p) <> None) by congruence. apply nth_error_Some in K. lia. Qed.

Lemma find_if_spec P s pos :
  match find_from (head_in P) s pos with
  | Some p => pos <= p /\ (exists c, at_pos s p = Some c /\ P c = true)
              /\ forall q c, pos <= q -> q < p -> at_pos s q = Some c -> P c = false
  | None => forall q c, pos <= q -> at_pos s q = Some c -> P c = false
  end.
Proof.
  destruct (find_from _ _ _) as [p|] eqn:E.
  - apply find_from_some in E as (H1 & H2 & H3). split; [lia|]. rewrite head_in_rest in H2.
    destruct (at_pos s p) as [c|] eqn:Ec; [|discriminate]. split; [eauto|].
    intros q d Hq1 Hq2 Hd. specialize (H3 q Hq1 Hq2). rewrite head_in_rest, Hd in H3. exact H3.
  - intros q d Hq Hd. pose proof (find_from_none _ _ _ E q Hq) as H.
    pose proof (at_pos_lt _ _ _ Hd). rewrite head_in_rest, Hd in H. apply H. lia.
Qed.
Lemma rfind_if_spec P s pos :
  match ustr_rfind_if P s pos with
  | Some p => p <= pos /\ (exists c, at_pos s p = Some c /\ P c = true)
              /\ forall q c, q <= pos -> p < q -> at_pos s q = Some c -> P c = false
  | None => forall q c, q <= pos -> at_pos s q = Some c -> P c = false
  end.
Proof.
  unfold ustr_rfind_if. destruct s as [|x s'] eqn:Es.
  { intros q c _ H. apply at_pos_lt in H. rewrite nlen_nil in H. lia. }
  rewrite <- Es. assert (L : 1 <= nlen s) by (rewrite Es, nlen_cons; lia). clear Es.
  destruct (rscan _ _ _) as [p|] eqn:E.
  - apply rscan_some in E as (H1 & H2 & H3). rewrite N2Nat.id in *. split; [lia|]. rewrite head_in_rest in H2.
    destruct (at_pos s p) as [c|] eqn:Ec; [|discriminate]. split; [eauto|].
    intros q d Hq1 Hq2 Hd. pose proof (at_pos_lt _ _ _ Hd). specialize (H3 q Hq2 ltac:(lia)).
    rewrite head_in_rest, Hd in H3. exact H3.
  - intros q d Hq Hd. pose proof (rscan_none _ _ _ E q) as H. rewrite N2Nat.id in *.
    pose proof (at_pos_lt _ _ _ Hd). rewrite head_in_rest, Hd in H. apply H. lia.
Qed.

Lemma mem_iff set c : mem set c = true <-> In c set.
Proof.
  unfold mem. rewrite existsb_exists. split.
  - intros (x & H & E). apply N.eqb_eq in E. now subst.
  - intros H. exists c. split; [assumption|apply N.eqb_refl].
Qed.

(** ** Replace *)
Lemma scan_shift P : forall l i, scan P l i = match scan P l 0 with Some k => Some (i + k) | None => None end.
Proof.
  induction l as [|x l IH]; intros i; cbn [scan]; destruct (P _); try (f_equal; lia); try reflexivity.
  rewrite (IH (i + 1)), (IH (0 + 1)). destruct (scan P l 0); [f_equal; lia|reflexivity].
Qed.
Lemma ustr_find_skip a s sub : ustr_find (a ++ s) sub (nlen a) =
  match ustr_find s sub 0 with Some k => Some (nlen a + k) | None => None end.
Proof.
  unfold ustr_find, find_from. rewrite nlen_app. replace (_ <? nlen a) with false by lia.
  replace (nlen s <? 0) with false by lia. unfold nlen at 1. rewrite Nat2N.id.
  rewrite skipn_app, skipn_all2, Nat.sub_diag by lia. cbn [app skipn N.to_nat]. apply scan_shift.
Qed.

Lemma firstn_len_app {A} (a b : list A) : firstn (N.to_nat (nlen a)) (a ++ b) = a.
Proof. unfold nlen. rewrite Nat2N.id, firstn_app, firstn_all, Nat.sub_diag. cbn. apply app_nil_r. Qed.
Lemma skipn_len_app {A} (a b : list A) : skipn (N.to_nat (nlen a)) (a ++ b) = b.
Proof. unfold nlen. rewrite Nat2N.id, skipn_app, skipn_all, Nat.sub_diag. reflexivity. Qed.

Lemma replace_at a m b new : ustr_replace (a ++ m ++ b) (nlen a) (nlen m) new = Some (a ++ new ++ b).
Proof.
  unfold ustr_replace. rewrite !nlen_app. replace (_ <? nlen a) with false by lia.
  rewrite firstn_len_app, <- nlen_app, (app_assoc a m b), skipn_len_app. reflexivity.
Qed.

Lemma replace_loop_ok old new : old <> [] -> forall fuel done rest,
  (length rest < fuel)%nat ->
  exists r, replace_loop fuel (done ++ rest) old new (nlen done) = Done (done ++ r)
    /\ Repl (fun c => c) old new rest r.
Proof.
  intros Hold. induction fuel as [|fuel IH]; intros done rest L; [lia|]. cbn [replace_loop].
  rewrite ustr_find_skip. pose proof (find_occ false rest old 0) as H. cbv iota in H. change (fold true) with to_lower in *; change (fold false) with (fun c : N => c) in H.
  destruct (ustr_find rest old 0) as [k|].
  - destruct H as (_ & (a & m & b & -> & <- & E) & Hq). rewrite !map_id in E. subst m.
    rewrite app_assoc, <- nlen_app, replace_at.
    destruct (IH (done ++ a ++ new) b) as (r & Er & Rr).
    { rewrite !app_length in L. destruct old; [congruence|]. cbn [length] in L. lia. }
    exists (a ++ new ++ r). split.
    + rewrite <- !app_assoc in Er. rewrite !nlen_app in *. rewrite <- !app_assoc.
      rewrite <- N.add_assoc. rewrite Er. reflexivity.
    + apply Repl_one; [reflexivity| |assumption]. intros p Hp. apply Hq; lia.
  - exists rest. split; [reflexivity|]. apply Repl_none. intros p. apply H. lia.
Qed.

Lemma make_lower_app a b : make_lower (a ++ b) = make_lower a ++ make_lower b.
Proof. apply map_app. Qed.
Lemma nlen_lower a : nlen (make_lower a) = nlen a.
Proof. apply nlen_map. Qed.

Lemma delta_pos d lo k : d + k < two64 -> lo + k < two64 ->
  (lo + k + (d + two64 - lo) mod two64) mod two64 = d + k.
Proof.
  intros H1 H2. unfold two64 in *.
  destruct (N.lt_ge_cases d lo) as [H|H].
  - rewrite (N.mod_small (d + _ - lo)) by lia.
    replace (lo + k + (d + 18446744073709551616 - lo)) with (d + k + 1 * 18446744073709551616) by lia.
    rewrite N.mod_add by lia. apply N.mod_small. lia.
  - replace (d + 18446744073709551616 - lo) with (d - lo + 1 * 18446744073709551616) by lia.
    rewrite N.mod_add by lia. rewrite (N.mod_small (d - lo)) by lia.
    rewrite N.mod_small by lia. lia.
Qed.
Lemma delta_next d lo k n o : lo + k + o < two64 -> o <= two64 ->
  ((d + two64 - lo) mod two64 + (n + two64 - o)) mod two64
  = (d + k + n + two64 - (lo + k + o)) mod two64.
Proof.
  intros H1 H2. rewrite N.add_mod_idemp_l by (unfold two64; lia).
  replace (d + two64 - lo + (n + two64 - o)) with (d + k + n + two64 - (lo + k + o) + 1 * two64) by lia.
  apply N.mod_add. unfold two64; lia.
Qed.

Lemma replace_loop_ic_ok old new : old <> [] -> forall fuel done lo rest,
  (length rest < fuel)%nat ->
  nlen lo + nlen rest < two64 -> nlen done + nlen rest * (1 + nlen new) < two64 ->
  exists r, replace_loop_ic fuel (done ++ rest) (lo ++ make_lower rest) old (make_lower old) new (nlen lo)
              ((nlen done + two64 - nlen lo) mod two64) = Done (done ++ r)
    /\ Repl to_lower old new rest r.
Proof.
  intros Hold. induction fuel as [|fuel IH]; intros done lo rest L B1 B2; [lia|]. cbn [replace_loop_ic].
  rewrite ustr_find_skip. pose proof (find_occ true rest old 0) as H. cbv iota in H. change (fold true) with to_lower in *; change (fold false) with (fun c : N => c) in H.
  destruct (ustr_find (make_lower rest) (make_lower old) 0) as [k|].
  - destruct H as (_ & (a & m & b & -> & <- & E) & Hq).
    assert (Lm : nlen m = nlen old). { rewrite <- (nlen_map to_lower m), E. apply nlen_map. }
    assert (Lo : 1 <= nlen old) by (destruct old; [congruence|rewrite nlen_cons; lia]).
    rewrite !nlen_app in B1, B2.
    rewrite delta_pos by nia. rewrite <- nlen_app, app_assoc, <- Lm, replace_at.
    rewrite Lm. rewrite (delta_next _ _ (nlen a)) by (unfold two64 in *; lia).
    destruct (IH (done ++ a ++ new) (lo ++ make_lower (a ++ m)) b) as (r & Er & Rr).
    { rewrite !app_length in L. assert (1 <= length m)%nat by (unfold nlen in Lm, Lo; lia). lia. }
    { rewrite !nlen_app, nlen_lower, nlen_app. lia. }
    { rewrite !nlen_app. nia. }
    exists (a ++ new ++ r). split.
    + rewrite <- !app_assoc in Er. rewrite !nlen_app, nlen_lower, nlen_app, Lm in Er.
      rewrite <- !app_assoc. rewrite !make_lower_app in *. rewrite <- !app_assoc in Er.
      rewrite <- !N.add_assoc in *. rewrite Er. reflexivity.
    + apply Repl_one; [assumption| |assumption]. intros p Hp. apply Hq; lia.
  - exists rest. split; [reflexivity|]. apply Repl_none. intros p. apply H. lia.
Qed.

Lemma ustr_find_nil s p : p <= nlen s -> ustr_find s [] p = Some p.
Proof.
  intros H. unfold ustr_find, find_from. replace (nlen s <? p) with false by lia.
  destruct (skipn _ s); reflexivity.
Qed.
Lemma replace_nil_loop : forall fuel s new dst, dst <= nlen s -> replace_loop fuel s [] new dst = NoEnd.
Proof.
  induction fuel as [|fuel IH]; intros s new dst H; [reflexivity|]. cbn [replace_loop].
  rewrite ustr_find_nil by assumption. unfold ustr_replace. replace (nlen s <? dst) with false by lia.
  apply IH. rewrite !nlen_app. rewrite nlen_nil, N.add_0_r.
  unfold nlen in *. rewrite firstn_length. lia.
Qed.

(** ** Split *)
Lemma find_ch_spec s ch pos :
  match tx_find_ch s ch pos false with
  | Some p => pos <= p /\ at_pos s p = Some ch /\ forall q, pos <= q -> q < p -> at_pos s q <> Some ch
  | None => forall q, pos <= q -> at_pos s q <> Some ch
  end.
Proof.
  unfold tx_find_ch, ustr_find_ch. pose proof (find_if_spec (N.eqb ch) s pos) as H.
  destruct (find_from _ _ _) as [p|].
  - destruct H as (H1 & (c & Hc & E) & H2). apply N.eqb_eq in E. subst c. split; [assumption|]. split; [assumption|].
    intros q Hq1 Hq2 C. specialize (H2 q ch Hq1 Hq2 C). rewrite N.eqb_refl in H2. discriminate.
  - intros q Hq C. specialize (H q ch Hq C). rewrite N.eqb_refl in H. discriminate.
Qed.

Lemma split_never fnd s : 1 <= nlen s -> nlen s < npos ->
  (forall p k, fnd p = Some k -> k < nlen s /\ k + 1 <> nlen s) ->
  forall fuel lastOcc result, lastOcc < npos -> split_loop fuel fnd s lastOcc result = NoEnd.
Proof.
  intros L1 L2 Hf. induction fuel as [|fuel IH]; intros lastOcc result Hl; [reflexivity|].
  cbn [split_loop]. replace (lastOcc <? npos) with true by lia. cbv zeta.
  destruct (fnd ((lastOcc + 1) mod two64)) as [k|] eqn:E; cbn [as_size].
  - apply Hf in E as [E1 E2]. rewrite (N.mod_small (k + 1)) by (unfold npos, two64 in *; lia).
    replace (k + 1 =? nlen s) with false by lia. apply IH. lia.
  - change ((npos + 1) mod two64) with 0. replace (0 =? nlen s) with false by lia. apply IH. reflexivity.
Qed.

Lemma at_pos_last s p c : at_pos s p = Some c -> p + 1 = nlen s -> last s 0 = c.
Proof.
  intros H L. pose proof (at_pos_lt _ _ _ H).
  assert (N : s <> []) by (intros ->; rewrite nlen_nil in L; lia).
  rewrite (app_removelast_last 0 N) in H. unfold at_pos in H.
  assert (length (removelast s) = N.to_nat p).
  { rewrite (app_removelast_last 0 N) in L. rewrite nlen_app, nlen_cons, nlen_nil in L. unfold nlen in L. lia. }
  rewrite nth_error_app2, H1, Nat.sub_diag in H by lia. cbn in H. congruence.
Qed.

Lemma at_pos_app1 a b p : p < nlen a -> at_pos (a ++ b) p = at_pos a p.
Proof. intros H. unfold at_pos. apply nth_error_app1. unfold nlen in H. lia. Qed.
Lemma at_pos_app2 a b p : at_pos (a ++ b) (nlen a + p) = at_pos b p.
Proof. unfold at_pos, nlen. rewrite nth_error_app2 by lia. f_equal. lia. Qed.
Lemma at_pos_in s p c : at_pos s p = Some c -> In c s.
Proof. apply nth_error_In. Qed.

Lemma find_ch_at pre p ch t pos : ~ In ch p -> nlen pre <= pos -> pos <= nlen pre + nlen p ->
  tx_find_ch (pre ++ p ++ ch :: t) ch pos false = Some (nlen pre + nlen p).
Proof.
  intros Hn H1 H2. pose proof (find_ch_spec (pre ++ p ++ ch :: t) ch pos) as S.
  assert (A : at_pos (pre ++ p ++ ch :: t) (nlen pre + nlen p) = Some ch).
  { rewrite at_pos_app2. rewrite <- (N.add_0_r (nlen p)), at_pos_app2. reflexivity. }
  assert (B : forall q, nlen pre <= q -> q < nlen pre + nlen p -> at_pos (pre ++ p ++ ch :: t) q <> Some ch).
  { intros q Hq1 Hq2 C. replace q with (nlen pre + (q - nlen pre)) in C by lia.
    rewrite at_pos_app2, at_pos_app1 in C by lia. apply Hn. now apply at_pos_in in C. }
  destruct (tx_find_ch _ _ _ _) as [k|].
  - destruct S as (S1 & S2 & S3). f_equal.
    destruct (N.lt_trichotomy k (nlen pre + nlen p)) as [L|[E|L]]; [|assumption|].
    + exfalso. apply (B k); [lia|lia|assumption].
    + exfalso. apply (S3 (nlen pre + nlen p)); [lia|lia|assumption].
  - exfalso. apply (S (nlen pre + nlen p)); [lia|assumption].
Qed.

Lemma mid_piece pre p t : p <> [] -> trim_invalid p = p -> mid (pre ++ p ++ t) (nlen pre) (nlen p) = p.
Proof.
  intros Hne Ht. unfold mid. rewrite !nlen_app.
  assert (1 <= nlen p) by (destruct p; [congruence|rewrite nlen_cons; lia]).
  replace (_ <=? nlen pre) with false by lia. unfold substr. rewrite skipn_len_app, firstn_len_app. exact Ht.
Qed.

Lemma split_join ch : forall ps pre fuel result s,
  s = pre ++ join ch ps -> nlen s < npos -> ps <> [] ->
  Forall (fun p => p <> [] /\ ~ In ch p /\ trim_invalid p = p) ps ->
  (length ps <= fuel)%nat ->
  split_loop fuel (fun p => tx_find_ch s ch p false) s (nlen pre) result = Done (result ++ ps).
Proof.
  induction ps as [|p ps IH]; intros pre fuel result s Es Ls Hne F L; [congruence|].
  inversion_clear F as [|? ? (Hp & Hin & Ht) F'].
  cbn [length] in L. destruct fuel as [|fuel]; [lia|]. cbn [split_loop].
  cbn [join flat_map] in Es. fold (join ch ps) in Es. rewrite <- app_assoc in Es. cbn [app] in Es.
  assert (Lp : 1 <= nlen p) by (destruct p; [congruence|rewrite nlen_cons; lia]).
  assert (Ll : nlen s = nlen pre + nlen p + 1 + nlen (join ch ps)) by (rewrite Es, !nlen_app, nlen_cons; lia).
  replace (nlen pre <? npos) with true by lia. cbv zeta.
  rewrite (N.mod_small (nlen pre + 1)) by (unfold npos, two64 in *; lia).
  assert (EF : tx_find_ch s ch (nlen pre + 1) false = Some (nlen pre + nlen p)).
  { rewrite Es. apply find_ch_at; [assumption|lia|lia]. }
  assert (EM : mid s (nlen pre) (nlen p) = p) by (rewrite Es; now apply mid_piece).
  rewrite EF.
  cbn [as_size]. replace (nlen pre + nlen p =? 0) with false by lia.
  replace ((nlen pre + nlen p + two64 - nlen pre) mod two64) with (nlen p).
  2:{ replace (nlen pre + nlen p + two64 - nlen pre) with (nlen p + 1 * two64) by lia.
      rewrite N.mod_add by (unfold two64; lia). rewrite N.mod_small; [reflexivity|]. unfold npos, two64 in *; lia. }
  rewrite EM.
  rewrite (N.mod_small (nlen pre + nlen p + 1)) by (unfold npos, two64 in *; lia).
  destruct ps as [|p2 ps].
  - cbn [join flat_map] in *. rewrite nlen_nil in Ll. replace (nlen pre + nlen p + 1 =? nlen s) with true by lia. reflexivity.
  - destruct (nlen pre + nlen p + 1 =? nlen s) eqn:E.
    { exfalso. cbn [join flat_map] in Ll. rewrite !nlen_app, nlen_cons, nlen_nil in Ll. lia. }
    replace (nlen pre + nlen p + 1) with (nlen (pre ++ p ++ [ch])) by (rewrite !nlen_app, nlen_cons, nlen_nil; lia).
    rewrite (IH (pre ++ p ++ [ch]) fuel (result ++ [p]) s); [now rewrite <- app_assoc| |assumption|discriminate|assumption|lia].
    rewrite Es, <- !app_assoc. reflexivity.
Qed.
