(** Versions of files (C130). *)
From Coq Require Import String List NArith ZArith Bool Lia.
From Coq Require Import ZifyN ZifyNat ZifyBool.
From Verif Require Import Bytes BytesProofs Txt UtfModel UtfSpec UtfProofs StringModel StringProofs NumModel NumProofs VersionModel.
Import ListNotations.
Open Scope N_scope.
Open Scope list_scope.

(** ** What a text says *)
(** The number at the start of a text: white space, a sign, digits, and whatever follows. *)
Definition white (c : N) : Prop := c = 32 \/ 9 <= c <= 13.
Definition decimal (c : N) : Prop := 48 <= c <= 57.
Definition value (ds : list N) : N := fold_left (fun a c => 10 * a + (c - 48)) ds 0.
Inductive sign_of : list N -> Z -> Prop :=
| sign_none : sign_of [] 1
| sign_plus : sign_of (T"+") 1
| sign_minus : sign_of (T"-") (-1).
Definition says (t : list N) (z : Z) : Prop :=
  exists sp sg f ds rest, t = sp ++ sg ++ ds ++ rest /\ Forall white sp /\ sign_of sg f /\ Forall decimal ds /\ ds <> []
    /\ (forall c r, rest = c :: r -> ~ decimal c) /\ z = (f * Z.of_N (value ds))%Z /\ (- 2 ^ 31 <= z < 2 ^ 31)%Z.
(** A version: two numbers and the first point between them. *)
Definition version_says (t : list N) (v : Z * Z) : Prop :=
  exists x y, t = x ++ T"." ++ y /\ ~ In 46 x /\ says x (fst v) /\ says y (snd v).

(** ** Proofs *)
Lemma skip_space_app sp r : Forall white sp -> (forall c q, r = c :: q -> ~ white c) -> skip_space (sp ++ r) = r.
Proof.
  intros H N0. induction H as [|c sp W _ IH]; cbn [app].
  - destruct r as [|c r]; [reflexivity|]. cbn [skip_space]. specialize (N0 c r eq_refl).
    assert (is_space c = false) as -> by (unfold is_space, white in *; lia). reflexivity.
  - cbn [skip_space]. assert (is_space c = true) as -> by (unfold is_space, white in *; lia). exact IH.
Qed.
Lemma skip_space_split t : exists sp, t = sp ++ skip_space t /\ Forall white sp.
Proof.
  induction t as [|c t (sp & E & F)]; [exists []; split; [reflexivity|constructor]|]. cbn [skip_space]. destruct (is_space c) eqn:W.
  - exists (c :: sp). split; [cbn [app]; congruence|constructor; [unfold is_space, white in *; lia|exact F]].
  - exists []. split; [reflexivity|constructor].
Qed.
Lemma digits_split : forall t a, exists ds rest, t = ds ++ rest /\ Forall decimal ds /\ (forall c r, rest = c :: r -> ~ decimal c)
  /\ digits_val t a = fold_left (fun a c => 10 * a + (c - 48)) ds a.
Proof.
  induction t as [|c t IH]; intros a; [exists [], []; repeat split; [constructor|intros ? ? [=]]|]. cbn [digits_val]. destruct (is_digit c) eqn:D.
  - destruct (IH (10 * a + (c - 48))) as (ds & rest & E & F & R & V). exists (c :: ds), rest. repeat split; [cbn; congruence| |exact R|exact V].
    constructor; [unfold is_digit, decimal in *; lia|exact F].
  - exists [], (c :: t). repeat split; [constructor|]. intros c' r [= -> ->]. unfold is_digit, decimal in *. lia.
Qed.
Lemma digits_app ds rest : forall a, Forall decimal ds -> (forall c r, rest = c :: r -> ~ decimal c) ->
  digits_val (ds ++ rest) a = fold_left (fun a c => 10 * a + (c - 48)) ds a.
Proof.
  induction ds as [|c ds IH]; intros a F R; cbn [app fold_left].
  - destruct rest as [|c r]; [reflexivity|]. cbn [digits_val]. specialize (R c r eq_refl).
    assert (is_digit c = false) as -> by (unfold is_digit, decimal in *; lia). reflexivity.
  - inversion F as [|? ? D F1]; subst. cbn [digits_val]. assert (is_digit c = true) as -> by (unfold is_digit, decimal in *; lia). apply IH; assumption.
Qed.
Lemma stoi_digits_iff (neg : bool) r z : stoi_digits neg r = Some z <->
  exists ds rest, r = ds ++ rest /\ Forall decimal ds /\ ds <> [] /\ (forall c q, rest = c :: q -> ~ decimal c)
    /\ z = ((if neg then -1 else 1) * Z.of_N (value ds))%Z /\ (- 2 ^ 31 <= z < 2 ^ 31)%Z.
Proof.
  change (2 ^ 31)%Z with 2147483648%Z. unfold stoi_digits, value. split.
  - destruct r as [|c r]; [discriminate|]. destruct (is_digit c) eqn:D; [|discriminate].
    destruct (digits_split (c :: r) 0) as (ds & rest & E & F & R & V). rewrite V.
    set (v := fold_left _ ds 0) in *. destruct ((-2147483648 <=? _) && _)%Z eqn:B; [|discriminate]. intros [= <-].
    exists ds, rest. repeat split; try assumption; [|destruct neg; lia..].
    intros ->. cbn [app] in E. apply (R c r); [symmetry; exact E|]. unfold is_digit, decimal in *; lia.
  - intros (ds & rest & -> & F & N0 & R & E & B). destruct ds as [|c ds]; [congruence|]. cbn [app].
    assert (is_digit c = true) as -> by (inversion F; unfold is_digit, decimal in *; lia).
    change (c :: ds ++ rest) with ((c :: ds) ++ rest). rewrite (digits_app (c :: ds) rest 0 F R).
    set (v := fold_left _ (c :: ds) 0) in *. cbv zeta. destruct neg.
    + assert (((-2147483648 <=? - Z.of_N v) && (- Z.of_N v <=? 2147483647))%Z = true) as -> by lia. f_equal. lia.
    + assert (((-2147483648 <=? Z.of_N v) && (Z.of_N v <=? 2147483647))%Z = true) as -> by lia. f_equal. lia.
Qed.
Lemma decimal_not_white c : decimal c -> ~ white c. Proof. unfold decimal, white. lia. Qed.
Lemma stoi_iff t z : stoi t = Some z <-> says t z.
Proof.
  unfold stoi, says. split.
  - destruct (skip_space_split t) as (sp & E & F). destruct (skip_space t) as [|c r]; [discriminate|]. cbv zeta. destruct (c =? 45) eqn:M; [|destruct (c =? 43) eqn:P].
    + intros H. apply stoi_digits_iff in H as (ds & rest & -> & D & N0 & R & V & B). apply N.eqb_eq in M. subst c.
      exists sp, (T"-"), (-1)%Z, ds, rest. repeat split; try assumption; try lia. constructor.
    + intros H. apply stoi_digits_iff in H as (ds & rest & -> & D & N0 & R & V & B). apply N.eqb_eq in P. subst c.
      exists sp, (T"+"), 1%Z, ds, rest. repeat split; try assumption; try lia. constructor.
    + intros H. apply stoi_digits_iff in H as (ds & rest & Q & D & N0 & R & V & B).
      exists sp, [], 1%Z, ds, rest. repeat split; try assumption; try lia; [rewrite E, Q; reflexivity|constructor].
  - intros (sp & sg & f & ds & rest & -> & W & S0 & D & N0 & R & V & B). rewrite skip_space_app; [|exact W|].
    + inversion S0; subst sg f; cbn [app].
      * assert (H : stoi_digits false (ds ++ rest) = Some z) by (apply stoi_digits_iff; exists ds, rest; repeat split; try assumption; lia).
        destruct ds as [|c ds]; [congruence|]. cbn [app] in *. inversion D as [|? ? D1 _]; subst.
        assert (c =? 45 = false) as -> by (unfold decimal in *; lia). assert (c =? 43 = false) as -> by (unfold decimal in *; lia). exact H.
      * change (T"+" ++ ds ++ rest) with (43 :: ds ++ rest). cbn [N.eqb Pos.eqb]. apply stoi_digits_iff. exists ds, rest. repeat split; try assumption; lia.
      * change (T"-" ++ ds ++ rest) with (45 :: ds ++ rest). cbn [N.eqb Pos.eqb]. apply stoi_digits_iff. exists ds, rest. repeat split; try assumption; lia.
    + intros c q E. inversion S0; subst sg f.
      * destruct ds as [|d ds]; [congruence|]. cbn [app] in E. injection E as -> _. inversion D; subst. apply decimal_not_white. assumption.
      * change (43 :: ds ++ rest = c :: q) in E. injection E as <- _. unfold white. lia.
      * change (45 :: ds ++ rest = c :: q) in E. injection E as <- _. unfold white. lia.
Qed.

(** *** Units of a text *)
Lemma enc16_1_in u c : scalar c -> u < 128 -> In u (enc16_1 c) -> c = u.
Proof. unfold enc16_1. destruct (c <? 65536) eqn:E; cbn [In]; intros Hs Hu I; [destruct I as [I|[]]; congruence|destruct I as [I|[I|[]]]; lia]. Qed.
Lemma in_enc16 cs : Forall scalar cs -> forall u, u < 128 -> In u (enc16 cs) <-> In u cs.
Proof.
  intros F u Hu. unfold enc16. rewrite in_flat_map. split.
  - intros (c & I & J). rewrite Forall_forall in F. apply (enc16_1_in u c (F c I) Hu) in J. subst. exact I.
  - intros I. exists u. split; [exact I|]. unfold enc16_1. assert (u <? 65536 = true) as -> by lia. left. reflexivity.
Qed.
Lemma trim_left_enc cs : Forall scalar cs -> trim_left_invalid (enc16 cs) = enc16 cs.
Proof.
  intros F. destruct F as [|c cs C F]; [reflexivity|]. rewrite enc16_cons. unfold enc16_1, scalar in *. destruct (c <? 65536) eqn:E; cbn [app trim_left_invalid].
  - assert ((56320 <=? c) && (c <=? 57343) = false) as -> by lia. reflexivity.
  - match goal with |- context [(56320 <=? ?x) && _] => assert ((56320 <=? x) && (x <=? 57343) = false) as -> by lia end. reflexivity.
Qed.
Lemma last_app_one {A} (d : A) : forall l x, last (l ++ [x]) d = x.
Proof. intros l x. induction l as [|a l IH]; [reflexivity|]. cbn [app last]. destruct (l ++ [x]) eqn:E; [destruct l; discriminate|exact IH]. Qed.
Lemma enc16_last c : scalar c -> exists p u, enc16_1 c = p ++ [u] /\ (u < 55296 \/ 56319 < u).
Proof.
  unfold enc16_1, scalar. intros H. destruct (c <? 65536) eqn:E.
  - exists [], c. split; [reflexivity|lia].
  - exists [55296 + (c - 65536) / 1024], (56320 + (c - 65536) mod 1024). split; [reflexivity|lia].
Qed.
Lemma trim_right_enc cs : Forall scalar cs -> trim_right_invalid (enc16 cs) = enc16 cs.
Proof.
  destruct (rev cs) as [|c l] eqn:E; [apply (f_equal (@rev N)) in E; rewrite rev_involutive in E; subst cs; reflexivity|].
  apply (f_equal (@rev N)) in E; rewrite rev_involutive in E. cbn [rev] in E. subst cs. set (q := rev l). intros F. apply Forall_app in F as (_ & F). inversion F as [|? ? C _]; subst.
  rewrite enc16_app, enc16_cons. change (enc16 []) with (@nil N). rewrite app_nil_r. destruct (enc16_last c C) as (p & u & -> & B). rewrite app_assoc.
  generalize (enc16 q ++ p). clear - B. intros l. unfold trim_right_invalid. rewrite last_app_one.
  assert ((55296 <=? u) && (u <=? 56319) = false) as -> by lia. destruct (l ++ [u]) eqn:E; congruence || reflexivity.
Qed.
Lemma trim_enc cs : Forall scalar cs -> trim_invalid (enc16 cs) = enc16 cs.
Proof. intros F. unfold trim_invalid. rewrite trim_left_enc by exact F. apply trim_right_enc, F. Qed.
Lemma scan_point x y : forall i, ~ In 46 x -> scan (is_prefix [46]) (x ++ 46 :: y) i = Some (i + nlen x).
Proof.
  induction x as [|c x IH]; intros i H; cbn [app scan is_prefix]; [rewrite N.eqb_refl; cbn [andb]; unfold nlen; cbn [length]; f_equal; lia|].
  assert (46 =? c = false) as -> by (apply N.eqb_neq; intros <-; apply H; left; reflexivity). cbn [andb]. rewrite IH by (intros I; apply H; right; exact I). f_equal. unfold nlen. cbn [length]. lia.
Qed.
Lemma scan_no_point s : forall i, ~ In 46 s -> scan (is_prefix [46]) s i = None.
Proof.
  induction s as [|c x IH]; intros i H; cbn [app scan is_prefix]; [reflexivity|].
  assert (46 =? c = false) as -> by (apply N.eqb_neq; intros <-; apply H; left; reflexivity). cbn [andb]. apply IH. intros I; apply H; right; exact I.
Qed.
Lemma find_point s : tx_find s (T".") 0 false = scan (is_prefix [46]) s 0.
Proof. unfold tx_find. change (T".") with [46]. unfold ustr_find, find_from. assert (nlen s <? 0 = false) as -> by lia. reflexivity. Qed.
Lemma first_point cs : In 46 cs -> exists x y, cs = x ++ 46 :: y /\ ~ In 46 x.
Proof.
  induction cs as [|c cs IH]; [intros []|]. destruct (N.eq_dec c 46) as [-> |H]; [exists [], cs; split; [reflexivity|intros []]|].
  intros [I|I]; [congruence|]. destruct (IH I) as (x & y & -> & J). exists (c :: x), y. split; [reflexivity|]. intros [K|K]; [congruence|exact (J K)].
Qed.
Lemma stoi_tx_enc cs : Forall scalar cs -> stoi_tx (enc16 cs) = stoi cs.
Proof. intros F. unfold stoi_tx, wide. rewrite dec16_enc by exact F. reflexivity. Qed.

(** The parts before and after the first point are read as numbers. *)
Lemma gdtf_version_split x y : Forall scalar x -> Forall scalar y -> ~ In 46 x -> nlen (enc16 (x ++ 46 :: y)) < npos ->
  gdtf_version (enc16 (x ++ 46 :: y)) = match stoi x, stoi y with Some a, Some b => (a, b) | _, _ => (0, 0)%Z end.
Proof.
  intros Fx Fy H L. unfold gdtf_version. rewrite find_point. rewrite enc16_app, enc16_cons in *. change (enc16_1 46) with [46] in *. cbn [app] in *.
  rewrite scan_point by (intros I; apply H; apply (in_enc16 x Fx 46); [reflexivity|exact I]). rewrite N.add_0_l.
  assert (mid (enc16 x ++ 46 :: enc16 y) 0 (nlen (enc16 x)) = enc16 x) as ->.
  { unfold mid. assert (nlen (enc16 x ++ 46 :: enc16 y) <=? 0 = false) as -> by (rewrite nlen_app; unfold nlen; cbn [length]; lia).
    unfold substr. cbn [N.to_nat skipn]. unfold nlen. rewrite Nnat.Nat2N.id. rewrite firstn_app, firstn_all, Nat.sub_diag. cbn [firstn]. rewrite app_nil_r. apply trim_enc, Fx. }
  assert (mid (enc16 x ++ 46 :: enc16 y) (nlen (enc16 x) + 1) npos = enc16 y) as ->.
  { unfold mid. rewrite nlen_app in *. destruct (nlen (enc16 x) + nlen (46 :: enc16 y) <=? nlen (enc16 x) + 1) eqn:Q.
    - assert (enc16 y = []) as ->; [|reflexivity]. destruct (enc16 y); [reflexivity|]. unfold nlen in *; cbn [length] in *; lia.
    - unfold substr. assert (S0 : skipn (N.to_nat (nlen (enc16 x) + 1)) (enc16 x ++ 46 :: enc16 y) = enc16 y).
      { replace (N.to_nat (nlen (enc16 x) + 1)) with (length (enc16 x ++ [46])) by (rewrite app_length; unfold nlen; cbn [length]; lia).
        change (enc16 x ++ 46 :: enc16 y) with (enc16 x ++ [46] ++ enc16 y). rewrite app_assoc. rewrite skipn_app, skipn_all, Nat.sub_diag. reflexivity. }
      rewrite S0. rewrite firstn_all2 by (unfold nlen in *; cbn [length] in *; lia). apply trim_enc, Fy. }
  rewrite !stoi_tx_enc by assumption. destruct (stoi x), (stoi y); reflexivity.
Qed.

(** ** C130 *)
(** Which numbers are taken from the text of the attribute, for every text (given by its characters): those it
    says, and 0 and 0 if it says none.  Nothing is thrown. *)
Theorem C130_gdtf : forall cs a b, Forall scalar cs -> nlen (enc16 cs) < npos ->
  gdtf_version (enc16 cs) = (a, b) <->
  version_says cs (a, b) \/ (a = 0 /\ b = 0 /\ forall v, ~ version_says cs v)%Z.
Proof.
  intros cs a b F L. assert (U : forall t z z', says t z -> says t z' -> z = z').
  { intros t z z' H H'. apply stoi_iff in H, H'. congruence. }
  destruct (in_dec N.eq_dec 46 cs) as [I|I].
  - destruct (first_point cs I) as (x & y & -> & J). pose proof F as F0. apply Forall_app in F0 as (Fx & Fy). inversion Fy as [|? ? _ Fy1]; subst.
    assert (V : forall v, version_says (x ++ 46 :: y) v <-> says x (fst v) /\ says y (snd v)).
    { intros v. split.
      - intros (x' & y' & E & J' & A & B). change (T"." ++ y') with (46 :: y') in E.
        assert (x' = x /\ y' = y) as (-> & ->); [|split; assumption].
        clear - E J J'. revert x' E J'. induction x as [|c x IH]; intros [|c' x'] E J'; cbn [app] in E.
        + injection E as ->. split; reflexivity.
        + injection E as <- _. destruct J'. left. reflexivity.
        + injection E as -> _. destruct J. left. reflexivity.
        + injection E as <- E. destruct (IH (fun K => J (or_intror K)) x' E (fun K => J' (or_intror K))) as (-> & ->). split; reflexivity.
      - intros (A & B). exists x, y. repeat split; assumption. }
    rewrite gdtf_version_split by assumption. rewrite V. cbn [fst snd]. rewrite <- !stoi_iff.
    destruct (stoi x) as [a'|] eqn:EA; [destruct (stoi y) as [b'|] eqn:EB|].
    + split; [intros [= -> ->]; left; split; reflexivity|]. intros [([= ->] & [= ->])|(_ & _ & K)]; [reflexivity|].
      destruct (K (a', b')). apply V. split; apply stoi_iff; assumption.
    + split; [intros [= <- <-]; right; repeat split; intros v K; apply V in K as (_ & K); apply stoi_iff in K; congruence|]. intros [(_ & [=])|(-> & -> & _)]. reflexivity.
    + split; [intros [= <- <-]; right; repeat split; intros v K; apply V in K as (K & _); apply stoi_iff in K; congruence|]. intros [([=] & _)|(-> & -> & _)]. reflexivity.
  - unfold gdtf_version. rewrite find_point, scan_no_point by (intros K; apply I; apply (in_enc16 cs F 46); [reflexivity|exact K]).
    assert (K : forall v, ~ version_says cs v). { intros v (x & y & -> & _). apply I. apply in_or_app. right. left. reflexivity. }
    split; [intros [= <- <-]; right; repeat split; exact K|]. intros [H|(-> & -> & _)]; [destruct (K _ H)|reflexivity].
Qed.
(** Some text that says a version with more after the numbers, and one that says none. *)
Example C130_gdtf_cases : version_says (T" 1.2.3 beta") (1, 2)%Z /\ gdtf_version (T" 1.2.3 beta") = (1, 2)%Z
  /\ gdtf_version (T"1") = (0, 0)%Z /\ gdtf_version (T"1.x") = (0, 0)%Z /\ gdtf_version (T"3000000000.1") = (0, 0)%Z.
Proof.
  split; [|repeat split; lazy; reflexivity]. exists (T" 1"), (T"2.3 beta"). split; [reflexivity|]. split; [vm_compute; intuition discriminate|]. split; apply stoi_iff; lazy; reflexivity.
Qed.

(** Versions as they are usually written. *)
Lemma stoi_dec n : n < 2 ^ 31 -> stoi (dec n) = Some (Z.of_N n).
Proof.
  intros H. change (2 ^ 31) with 2147483648 in H. apply stoi_iff. destruct (dec_spec n) as (D & N0 & _). exists [], [], 1%Z, (dec n), []. rewrite app_nil_r. split; [reflexivity|].
  assert (Dd : Forall decimal (dec n)) by (eapply Forall_impl; [|exact D]; intros c Hc; unfold digit, decimal in *; lia).
  split; [constructor|]. split; [constructor|]. split; [exact Dd|]. split; [exact N0|]. split; [intros ? ? [=]|].
  pose proof (dec_val n) as V. rewrite <- (app_nil_r (dec n)) in V. rewrite (digits_app (dec n) [] 0 Dd) in V by (intros ? ? [=]). unfold value. rewrite V. change (2 ^ 31)%Z with 2147483648%Z. lia.
Qed.
Theorem C130_gdtf_usual : forall a b, a < 2 ^ 31 -> b < 2 ^ 31 -> gdtf_version (dec a ++ T"." ++ dec b) = (Z.of_N a, Z.of_N b).
Proof.
  intros a b Ha Hb. assert (A : forall n, Forall (fun c => c < 128) (dec n)). { intros n. destruct (dec_spec n) as (D & _). eapply Forall_impl; [|exact D]. intros c Hc. unfold digit in Hc. cbn beta. lia. }
  assert (Sc : forall l, Forall (fun c => c < 128) l -> Forall scalar l) by (intros l Hl; eapply Forall_impl; [|exact Hl]; intros c Hc; unfold scalar; cbn beta in *; lia).
  change (T"." ++ dec b) with (46 :: dec b).
  assert (E : enc16 (dec a ++ 46 :: dec b) = dec a ++ 46 :: dec b). { apply enc16_ascii. apply Forall_app. split; [apply A|constructor; [reflexivity|apply A]]. }
  rewrite <- E. rewrite gdtf_version_split; [rewrite !stoi_dec by assumption; reflexivity|apply Sc, A|apply Sc, A| |].
  - destruct (dec_spec a) as (D & _). rewrite Forall_forall in D. intros I. apply D in I. unfold digit in I. lia.
  - rewrite E. assert (B : forall n, n < 2 ^ 31 -> nlen (dec n) <= 100).
    { intros n Hn. unfold dec. assert (G : forall f m acc, nlen (dec_loop f m acc) <= N.of_nat f + nlen acc).
      { induction f as [|f IH]; intros m acc; cbn [dec_loop]; [lia|]. destruct (m / 10 =? 0); [unfold nlen; cbn [length]; lia|]. specialize (IH (m / 10) ((48 + m mod 10) :: acc)). unfold nlen in *; cbn [length] in *; lia. }
      specialize (G (S (N.to_nat (N.size n))) n []). change (nlen []) with 0 in G. pose proof (N.size_le n) as Z1.
      assert (N.size n <= 32); [|lia]. destruct (N.le_gt_cases (N.size n) 32) as [Y|Y]; [exact Y|]. assert (2 ^ 33 <= 2 ^ N.size n) by (apply N.pow_le_mono_r; lia).
      rewrite N.succ_double_spec in Z1. change (2 ^ 31) with 2147483648 in Hn. change (2 ^ 33) with 8589934592 in *. lia. }
    rewrite nlen_app. specialize (B a Ha) as B1. specialize (B b Hb) as B2. unfold nlen in *. cbn [length]. change npos with 18446744073709551615. lia.
Qed.

(** The program reads the version it writes, and it is the one it says it supports. *)
Theorem C130_gdtf_written : gdtf_version written_gdtf_version = latest_gdtf_version /\ get_gdtf_version (gdtf_version written_gdtf_version) = (true, latest_gdtf_version).
Proof. split; lazy; reflexivity. Qed.

(** Both numbers of a version above 0 are handed out as they are in the file. *)
Theorem C130_get : forall a b, 0 < a < 2 ^ 31 -> 0 < b < 2 ^ 31 ->
  get_gdtf_version (gdtf_version (dec a ++ T"." ++ dec b)) = (true, (Z.of_N a, Z.of_N b)).
Proof.
  intros a b Ha Hb. rewrite C130_gdtf_usual by apply Ha || apply Hb. unfold get_gdtf_version.
  assert (((Z.of_N a <=? 0) || (Z.of_N b <=? 0))%Z = false) as -> by lia. reflexivity.
Qed.
Example C130_get_case : get_gdtf_version (gdtf_version (T"1.10")) = (true, (1, 10)%Z).
Proof. lazy. reflexivity. Qed.
(** If the call succeeds, the file says this version. *)
Theorem C130_get_says : forall cs v, Forall scalar cs -> nlen (enc16 cs) < npos ->
  get_gdtf_version (gdtf_version (enc16 cs)) = (true, v) -> version_says cs v /\ (0 < fst v /\ 0 < snd v)%Z.
Proof.
  intros cs (a, b) F L. destruct (gdtf_version (enc16 cs)) as (a', b') eqn:E. unfold get_gdtf_version. destruct ((a' <=? 0) || _)%Z eqn:Q; [intros [=]|]. intros [= -> ->].
  apply (C130_gdtf cs a b F L) in E as [E|(-> & -> & _)]; [split; [exact E|cbn [fst snd]; lia]|discriminate].
Qed.
(** But files of version 1.0 are treated as if they had none. *)
Theorem C130_get_refuted : exists t, version_says t (1, 0)%Z /\ gdtf_version t = (1, 0)%Z /\ get_gdtf_version (gdtf_version t) = (false, (0, 0)%Z).
Proof.
  exists (T"1.0"). split; [|split; lazy; reflexivity]. exists (T"1"), (T"0"). split; [reflexivity|]. split; [vm_compute; intuition discriminate|]. split; apply stoi_iff; lazy; reflexivity.
Qed.

(** ** Scenes *)
Lemma round_64_32 z : (- 2147483648 <= z <= 2147483647)%Z -> to_signed 32 (Z.of_N (to_unsigned 64 z)) = z.
Proof.
  intros H. unfold to_unsigned. rewrite Z2N.id by (apply Z.mod_pos_bound; reflexivity).
  assert (to_signed 32 (z mod 2 ^ Z.of_N 64) = to_signed 32 z) as ->.
  { unfold to_signed. change (2 ^ Z.of_N 64)%Z with (2 ^ Z.of_N 32 * 4294967296)%Z. change (2 ^ Z.of_N 32)%Z with 4294967296%Z. rewrite <- (Znumtheory.Zmod_div_mod 4294967296); [reflexivity|reflexivity|reflexivity|]. exists 4294967296%Z. reflexivity. }
  apply to_signed_small; [reflexivity|]. change (2 ^ (Z.of_N 32 - 1))%Z with 2147483648%Z. lia.
Qed.
(** Any two integers in the attributes are handed out. *)
Theorem C130_mvr : forall a b, (- 2 ^ 31 <= a < 2 ^ 31)%Z -> (- 2 ^ 31 <= b < 2 ^ 31)%Z ->
  exists v, mvr_version (int_text a) (int_text b) = Ok v /\ get_mvr_version v = (a, b).
Proof.
  intros a b Ha Hb. change (2 ^ 31)%Z with 2147483648%Z in *. unfold mvr_version. rewrite !atoi_int_text by lia. cbn [bind]. eexists. split; [reflexivity|].
  unfold get_mvr_version. cbn [fst snd]. rewrite !round_64_32 by lia. reflexivity.
Qed.
Theorem C130_mvr_written : exists v, mvr_version (fst written_mvr_version) (snd written_mvr_version) = Ok v /\ get_mvr_version v = latest_mvr_version.
Proof. exists (1, 6). split; lazy; reflexivity. Qed.
(** Unlike the version of a fixture, a number too large for an int is undefined behaviour. *)
Theorem C130_mvr_refuted : exists a b, mvr_version a b = UB /\ gdtf_version (a ++ T"." ++ b) = (0, 0)%Z.
Proof. exists (T"99999999999"), (T"6"). split; lazy; reflexivity. Qed.

Print Assumptions C130_gdtf.
Print Assumptions C130_gdtf_usual.
Print Assumptions C130_gdtf_written.
Print Assumptions C130_get.
Print Assumptions C130_get_says.
Print Assumptions C130_get_refuted.
Print Assumptions C130_mvr.
Print Assumptions C130_mvr_written.
Print Assumptions C130_mvr_refuted.
