(** Proofs about the interface objects (VcomModel.v). *)
From Coq Require Import List String NArith Bool Arith Lia.
From Verif Require Import VcomDefs VcomTable VcomModel.
Import ListNotations.
Local Open Scope string_scope.
Local Open Scope list_scope.

(** ** Identifiers *)

Lemma list_eqb_spec a b : list_eqb a b = true <-> a = b.
Proof.
  revert b; induction a as [|x a IH]; intros [|y b]; cbn [list_eqb]; split; intros H; try reflexivity; try discriminate.
  - apply andb_prop in H as [H1 H2]. apply N.eqb_eq in H1. apply IH in H2. subst; reflexivity.
  - pose proof (f_equal (hd 0%N) H) as H1. pose proof (f_equal (@tl N) H) as H2. cbn in H1, H2. subst.
    rewrite N.eqb_refl. cbn. apply IH; reflexivity.
Qed.

Lemma less_loop_ne a b l : less_loop a b l false = (l, false).
Proof. destruct a, b; reflexivity. Qed.

(** The order of [operator<] on lists of one length: the first difference decides. *)
Inductive lex : list N -> list N -> Prop :=
| lex_now x y a b : (x < y)%N -> List.length a = List.length b -> lex (x :: a) (y :: b)
| lex_later x a b : lex a b -> lex (x :: a) (x :: b).

Lemma lex_length a b : lex a b -> List.length a = List.length b.
Proof. induction 1; cbn; congruence. Qed.

Lemma less_loop_spec a b l : List.length a = List.length b ->
  (less_loop a b l true = (l, true) /\ a = b) \/
  (less_loop a b l true = (true, false) /\ lex a b) \/
  (less_loop a b l true = (false, false) /\ lex b a).
Proof.
  revert b l; induction a as [|x a IH]; intros [|y b] l H; cbn in H; try discriminate.
  - left; split; reflexivity.
  - apply Nat.succ_inj in H. cbn [less_loop].
    destruct (N.eqb_spec x y) as [->|Hne]; cbn [negb].
    + destruct (IH b l H) as [[E1 E2]|[[E1 E2]|[E1 E2]]]; rewrite E1.
      * left; split; [reflexivity|subst; reflexivity].
      * right; left; split; [reflexivity|constructor; exact E2].
      * right; right; split; [reflexivity|constructor; exact E2].
    + rewrite less_loop_ne. destruct (N.ltb_spec x y).
      * right; left; split; [reflexivity|constructor; [assumption|exact H]].
      * right; right; split; [reflexivity|constructor; [lia|symmetry; exact H]].
Qed.

Lemma lex_irrefl a : ~ lex a a.
Proof. induction a; intros H; inversion H; subst; [lia|auto]. Qed.

Lemma lex_trans a b c : lex a b -> lex b c -> lex a c.
Proof.
  intros H; revert c; induction H as [x y a b Hx Hl|x a b H IH]; intros c H1; inversion H1; subst.
  - constructor; [lia|congruence].
  - constructor; [assumption|]. match goal with L : lex _ _ |- _ => apply lex_length in L; congruence end.
  - constructor; [assumption|]. apply lex_length in H. congruence.
  - apply lex_later. apply IH. assumption.
Qed.

Definition wf_iid (i : iid) : Prop := List.length (data4 i) = 8.

Lemma members_length i : wf_iid i -> List.length (members i) = 11.
Proof. unfold wf_iid, members; intros H. cbn [List.length]. rewrite firstn_length, H. reflexivity. Qed.

Lemma members_inj i j : wf_iid i -> wf_iid j -> members i = members j -> i = j.
Proof.
  unfold members, wf_iid; destruct i as [a b c d], j as [a' b' c' d']; cbn [data1 data2 data3 data4]; intros Hi Hj H.
  rewrite (firstn_all2 d), (firstn_all2 d') in H by lia. congruence.
Qed.

Lemma iid_ltb_lex i j : wf_iid i -> wf_iid j -> iid_ltb i j = true <-> lex (members i) (members j).
Proof.
  intros Hi Hj. unfold iid_ltb.
  destruct (less_loop_spec (members i) (members j) true) as [[E1 E2]|[[E1 E2]|[E1 E2]]];
    [rewrite !members_length by assumption; reflexivity| | |]; rewrite E1; cbn [negb andb].
  - rewrite E2. split; intros H; [discriminate|]. exfalso; exact (lex_irrefl _ H).
  - tauto.
  - split; intros H; [discriminate|]. exfalso. exact (lex_irrefl _ (lex_trans _ _ _ E2 H)).
Qed.

Lemma iid_trichotomy i j : wf_iid i -> wf_iid j -> iid_ltb i j = true \/ i = j \/ iid_ltb j i = true.
Proof.
  intros Hi Hj. rewrite !iid_ltb_lex by assumption.
  destruct (less_loop_spec (members i) (members j) true) as [[E1 E2]|[[E1 E2]|[E1 E2]]];
    [rewrite !members_length by assumption; reflexivity| | |]; auto.
  right; left; apply members_inj; assumption.
Qed.

(** ** The tables *)

Fixpoint nodupb {A} (eqb : A -> A -> bool) (l : list A) : bool :=
  match l with [] => true | x :: l' => negb (existsb (eqb x) l') && nodupb eqb l' end.

Lemma nodupb_ok {A} (eqb : A -> A -> bool) l : (forall x y, x = y -> eqb x y = true) -> nodupb eqb l = true -> NoDup l.
Proof.
  intros E; induction l as [|x l IH]; cbn; intros H; constructor; apply andb_prop in H as [H1 H2].
  - intros Hi. apply negb_true_iff in H1. assert (existsb (eqb x) l = true); [|congruence].
    apply existsb_exists. exists x; split; [assumption|apply E; reflexivity].
  - apply IH; assumption.
Qed.

Lemma iid_eqb_spec i j : iid_eqb i j = true <-> members i = members j.
Proof. apply list_eqb_spec. Qed.

Definition wf_iidb (i : iid) : bool := Nat.eqb (List.length (data4 i)) 8.

Lemma all_wf : forallb (fun p => wf_iidb (snd p)) iids = true.
Proof. vm_compute; reflexivity. Qed.

Lemma iids_distinct : nodupb iid_eqb (map snd iids) = true.
Proof. vm_compute; reflexivity. Qed.

Lemma in_wf n i : In (n, i) iids -> wf_iid i.
Proof.
  intros H. pose proof all_wf as E. rewrite forallb_forall in E. apply E in H. apply Nat.eqb_eq in H. exact H.
Qed.

Lemma assoc_in {A} k (l : list (string * A)) a : assoc k l = Some a -> In (k, a) l.
Proof.
  induction l as [|[k' b] l IH]; cbn; [discriminate|]. destruct (String.eqb_spec k k'); intros H; [left|right; auto].
  subst; congruence.
Qed.

Lemma class_in_none l i :
  (forall n c j, In (n, c) l -> iid_of n = Some j -> members i <> members j) -> class_in l i = None.
Proof.
  induction l as [|[n c] l IH]; intros H; [reflexivity|]. cbn [class_in].
  destruct (iid_of n) as [j|] eqn:E.
  - destruct (iid_eqb i j) eqn:E1.
    + apply iid_eqb_spec in E1. exfalso. exact (H n c j (or_introl eq_refl) E E1).
    + apply IH. intros n' c' j' Hi. apply H with c'. right; exact Hi.
  - apply IH. intros n' c' j' Hi. apply H with c'. right; exact Hi.
Qed.

(** Every declared identifier but one: its class implements the declared interface. *)
Definition decl_ok (p : string * string) : bool :=
  String.eqb (fst p) "IID_StdFile" ||
  match iid_of (fst p) with
  | Some i => match class_of i with
              | Some c => match assoc c implements with Some t => String.eqb t (snd p) | None => false end
              | None => false
              end
  | None => false
  end.
Lemma all_decl_ok : forallb decl_ok declared = true.
Proof. vm_compute; reflexivity. Qed.

Definition getter_ok (g : getter) : bool :=
  match iid_of (g_iid g) with
  | Some i => match class_of i with
              | Some c => String.eqb c (g_cast g) &&
                          match assoc c implements with Some t => String.eqb t (g_inter g) | None => false end
              | None => false
              end
  | None => false
  end.
Lemma all_getter_ok : forallb getter_ok getters = true.
Proof. vm_compute; reflexivity. Qed.

Lemma getter_class g : In g getters ->
  exists i, iid_of (g_iid g) = Some i /\ class_of i = Some (g_cast g) /\ assoc (g_cast g) implements = Some (g_inter g).
Proof.
  intros H. pose proof all_getter_ok as E. rewrite forallb_forall in E. apply E in H. unfold getter_ok in H.
  destruct (iid_of (g_iid g)) as [i|]; [|discriminate]. exists i.
  destruct (class_of i) as [c|]; [|discriminate]. apply andb_prop in H as [H1 H2]. apply String.eqb_eq in H1. subst c.
  destruct (assoc (g_cast g) implements) as [t|]; [|discriminate]. apply String.eqb_eq in H2. subst t. auto.
Qed.

(** No interface is implemented by two classes. *)
Lemma implements_inj_b : nodupb String.eqb (map snd implements) = true.
Proof. vm_compute; reflexivity. Qed.

Lemma nodup_snd {A B} (l : list (A * B)) a a' b : NoDup (map snd l) -> In (a, b) l -> In (a', b) l -> a = a'.
Proof.
  induction l as [|[x y] l IH]; cbn; intros H H1 H2; [contradiction|]. inversion H; subst.
  destruct H1 as [H1|H1], H2 as [H2|H2].
  - congruence.
  - exfalso; apply H4. replace y with b by congruence. apply in_map_iff. exists (a', b); auto.
  - exfalso; apply H4. replace y with b by congruence. apply in_map_iff. exists (a, b); auto.
  - auto.
Qed.

Lemma implements_inj c c' t : assoc c implements = Some t -> assoc c' implements = Some t -> c = c'.
Proof.
  intros H1 H2. eapply nodup_snd; [|apply assoc_in; exact H1|apply assoc_in; exact H2].
  eapply nodupb_ok; [|exact implements_inj_b]. intros x y ->; apply String.eqb_refl.
Qed.

(** ** The heap *)

Lemma upd_length {A} n (x : A) l : List.length (upd n x l) = List.length l.
Proof. revert n; induction l as [|y l IH]; intros [|n]; cbn; auto. Qed.

Lemma nth_upd_same {A} n (x : A) l : n < List.length l -> nth_error (upd n x l) n = Some x.
Proof. revert n; induction l as [|y l IH]; intros [|n] H; cbn in *; try lia; [reflexivity|]. apply IH; lia. Qed.

Lemma nth_upd_other {A} n m (x : A) l : n <> m -> nth_error (upd n x l) m = nth_error l m.
Proof.
  revert n m; induction l as [|y l IH]; intros [|n] [|m] H; cbn; try reflexivity; try lia. apply IH; lia.
Qed.

Lemma upd_app_last {A} (l : list A) x y : upd (List.length l) y (l ++ [x]) = l ++ [y].
Proof. induction l as [|z l IH]; cbn; [reflexivity|]. rewrite IH; reflexivity. Qed.

Lemma upd_app_l {A} n (x : A) l k : n < List.length l -> upd n x (l ++ k) = upd n x l ++ k.
Proof. revert n; induction l as [|y l IH]; intros [|n] H; cbn in *; try lia; [reflexivity|]. rewrite IH by lia; reflexivity. Qed.

Lemma nth_last {A} (l : list A) x : nth_error (l ++ [x]) (List.length l) = Some x.
Proof. rewrite nth_error_app2 by lia. rewrite Nat.sub_diag. reflexivity. Qed.

Lemma nth_lt {A} (l : list A) n x : nth_error l n = Some x -> n < List.length l.
Proof. intros H. apply nth_error_Some. congruence. Qed.

Lemma deref_live h i o : nth_error h i = Some (Some o) -> deref h i = VOk o.
Proof. unfold deref; intros ->; reflexivity. Qed.

Lemma deref_inv h i o : deref h i = VOk o -> nth_error h i = Some (Some o).
Proof. unfold deref. destruct (nth_error h i) as [[o'|]|]; intros H; try discriminate. congruence. Qed.

Lemma query_ok h i c q : class_of i = Some c ->
  query_interface h i (Some q) = VOk (h ++ [Some (Obj c 1 (fresh_ptr c))], Some (Some (List.length h)), kNoError).
Proof.
  intros H. unfold query_interface. rewrite H. unfold add_ref.
  rewrite (deref_live _ _ _ (nth_last h _)). cbn [vbind o_class o_refs o_ptr].
  rewrite upd_app_last. reflexivity.
Qed.

Lemma make_ok h g p : In g getters ->
  make h g p = VOk (h ++ [Some (Obj (g_cast g) 1 p)], List.length h).
Proof.
  intros H. destruct (getter_class g H) as (i & E1 & E2 & _). unfold make. rewrite E1.
  rewrite (query_ok _ _ _ None E2). cbn [vbind]. rewrite (deref_live _ _ _ (nth_last h _)). cbn [vbind o_class o_refs o_ptr].
  rewrite String.eqb_refl. rewrite upd_app_last. reflexivity.
Qed.

(** The counts of a heap. *)
Definition counts (h : heap) (f : nat -> nat) : Prop :=
  forall i, match nth_error h i with
            | Some (Some o) => o_refs o = N.of_nat (f i) /\ 0 < f i
            | _ => f i = 0
            end.

Definition plus1 (f : nat -> nat) (p : option nat) (i : nat) : nat :=
  f i + match p with Some j => if Nat.eqb i j then 1 else 0 | None => 0 end.

(** The classes and own pointers do not change, freed objects stay freed. *)
Definition stable (h h' : heap) : Prop :=
  List.length h <= List.length h' /\
  forall i o', i < List.length h -> nth_error h' i = Some (Some o') ->
    exists o, nth_error h i = Some (Some o) /\ o_class o = o_class o' /\ o_ptr o = o_ptr o'.

Lemma stable_refl h : stable h h.
Proof. split; [lia|]. intros i o' _ H; exists o'; auto. Qed.

Lemma stable_trans a b c : stable a b -> stable b c -> stable a c.
Proof.
  intros [L1 H1] [L2 H2]; split; [lia|]. intros i o' Hi E.
  destruct (H2 i o') as (o & E1 & E2 & E3); [lia|assumption|].
  destruct (H1 i o Hi E1) as (o0 & E4 & E5 & E6). exists o0; repeat split; congruence.
Qed.

Lemma stable_app h x : stable h (h ++ [x]).
Proof.
  split; [rewrite app_length; lia|]. intros i o' Hi E. rewrite nth_error_app1 in E by assumption. exists o'; auto.
Qed.

Lemma stable_upd h i c n p n' : nth_error h i = Some (Some (Obj c n p)) -> stable h (upd i (Some (Obj c n' p)) h).
Proof.
  intros H; split; [rewrite upd_length; lia|]. intros j o' Hj E. destruct (Nat.eq_dec i j) as [Hn|Hn]; [subst j|].
  - rewrite nth_upd_same in E by assumption. exists (Obj c n p). split; [assumption|].
    injection E as <-. auto.
  - rewrite nth_upd_other in E by assumption. exists o'; auto.
Qed.

Lemma stable_free h i : stable h (upd i None h).
Proof.
  split; [rewrite upd_length; lia|]. intros j o' Hj E. destruct (Nat.eq_dec i j) as [Hn|Hn]; [subst j|].
  - rewrite nth_upd_same in E by assumption. discriminate.
  - rewrite nth_upd_other in E by assumption. exists o'; auto.
Qed.

Lemma add_ref_ok h f i : counts h f -> 0 < f i -> (N.of_nat (f i) + 1 < 2 ^ 32)%N ->
  exists h', add_ref h i = VOk h' /\ counts h' (plus1 f (Some i)) /\ stable h h' /\ List.length h' = List.length h.
Proof.
  intros C P B. pose proof (C i) as Ci. unfold add_ref, deref.
  destruct (nth_error h i) as [[o|]|] eqn:E; try lia. cbn [vbind]. destruct Ci as [Cr _].
  eexists; split; [reflexivity|]. rewrite upd_length. split; [|split; [|reflexivity]].
  - intros j. unfold plus1. destruct (Nat.eqb_spec j i) as [Hn|Hn]; [subst j|].
    + rewrite nth_upd_same by (apply nth_lt in E; exact E). cbn [o_refs]. rewrite Cr.
      rewrite N.mod_small by exact B. split; [|lia]. lia.
    + rewrite nth_upd_other by auto. pose proof (C j) as Cj. rewrite Nat.add_0_r. exact Cj.
  - destruct o as [c n p]. cbn [o_class o_ptr]. apply stable_upd with n. exact E.
Qed.

Lemma add_ref_opt_ok h f p : counts h f -> (forall i, p = Some i -> 0 < f i /\ (N.of_nat (f i) + 1 < 2 ^ 32)%N) ->
  exists h', add_ref_opt h p = VOk h' /\ counts h' (plus1 f p) /\ stable h h' /\ List.length h' = List.length h.
Proof.
  intros C H. destruct p as [i|].
  - destruct (H i eq_refl) as [P B]. apply add_ref_ok; assumption.
  - exists h. split; [reflexivity|]. split; [|split; [apply stable_refl|reflexivity]].
    intros j. unfold plus1. rewrite Nat.add_0_r. apply C.
Qed.

(** [f] is [f'] and one more for [p]. *)
Lemma release_ok h f f' i : counts h f -> (forall j, f j = plus1 f' (Some i) j) ->
  exists h', release h i = VOk h' /\ counts h' f' /\ stable h h' /\ List.length h' = List.length h.
Proof.
  intros C F. pose proof (C i) as Ci. pose proof (F i) as Fi. unfold plus1 in Fi. rewrite Nat.eqb_refl in Fi.
  unfold release, deref. destruct (nth_error h i) as [[o|]|] eqn:E; try lia. cbn [vbind]. destruct Ci as [Cr Cp].
  rewrite (proj2 (N.ltb_lt 0 (o_refs o))) by lia.
  eexists; split; [reflexivity|]. rewrite upd_length.
  assert (L := nth_lt _ _ _ E).
  split; [|split; [|reflexivity]].
  - intros j. pose proof (F j) as Fj. unfold plus1 in Fj. destruct (Nat.eqb_spec j i) as [Hn|Hn]; [subst j|].
    + rewrite nth_upd_same by exact L. destruct (N.eqb_spec (o_refs o - 1) 0); [lia|].
      cbn [o_refs]. lia.
    + rewrite nth_upd_other by auto. pose proof (C j) as Cj. rewrite Nat.add_0_r in Fj. rewrite <- Fj. exact Cj.
  - destruct (N.eqb_spec (o_refs o - 1) 0); [apply stable_free|].
    destruct o as [c n0 p]. cbn [o_class o_ptr]. apply stable_upd with n0. exact E.
Qed.

Lemma release_opt_ok h f f' p : counts h f -> (forall j, f j = plus1 f' p j) ->
  exists h', release_opt h p = VOk h' /\ counts h' f' /\ stable h h' /\ List.length h' = List.length h.
Proof.
  intros C F. destruct p as [i|]; [apply release_ok with f; assumption|].
  exists h; split; [reflexivity|]. split; [|split; [apply stable_refl|reflexivity]].
  intros j. pose proof (F j) as Fj. unfold plus1 in Fj. rewrite Nat.add_0_r in Fj. rewrite <- Fj. apply C.
Qed.

Lemma new_counts h f c p : counts h f -> counts (h ++ [Some (Obj c 1 p)]) (plus1 f (Some (List.length h))).
Proof.
  intros C i. unfold plus1. pose proof (C i) as Ci. destruct (Nat.eqb_spec i (List.length h)) as [Hn|Hn]; [subst i|].
  - rewrite nth_last. rewrite (proj2 (nth_error_None h (List.length h))) in Ci by lia. rewrite Ci. cbn. split; [reflexivity|lia].
  - rewrite Nat.add_0_r. destruct (Nat.lt_ge_cases i (List.length h)).
    + rewrite nth_error_app1 by assumption. exact Ci.
    + rewrite (proj2 (nth_error_None h i)) in Ci by lia.
      rewrite (proj2 (nth_error_None _ i)); [exact Ci|]. rewrite app_length; cbn [List.length]; lia.
Qed.

Lemma release_app h x p h' : release_opt h p = VOk h' -> release_opt (h ++ [x]) p = VOk (h' ++ [x]).
Proof.
  destruct p as [i|]; cbn [release_opt]; intros H; [|injection H as <-; reflexivity].
  unfold release, deref in *. destruct (nth_error h i) as [[o|]|] eqn:E; cbn [vbind] in H; try discriminate.
  assert (L := nth_lt _ _ _ E). rewrite nth_error_app1 by exact L. rewrite E. cbn [vbind].
  rewrite !upd_app_l by exact L.
  destruct (N.ltb 0 (o_refs o)); [|destruct (String.eqb (o_class o) "CRawOSFileImpl")];
    injection H as <-; try reflexivity.
Qed.

(** ** Programs *)

(** How many variables hold the object. *)
Definition holds (i : nat) (x : var) : bool := match v_ptr x with Some j => Nat.eqb i j | None => false end.
Definition holders (vs : list var) (i : nat) : nat := List.length (filter (holds i) vs).

Lemma holds_plus1 i x : (if holds i x then 1 else 0) = match v_ptr x with Some j => if Nat.eqb i j then 1 else 0 | None => 0 end.
Proof. unfold holds. destruct (v_ptr x); reflexivity. Qed.

Lemma holders_cons x vs i : holders (x :: vs) i = plus1 (holders vs) (v_ptr x) i.
Proof. unfold holders, plus1. cbn [filter]. rewrite <- holds_plus1. destruct (holds i x); cbn [List.length]; lia. Qed.

Lemma holders_app vs x i : holders (vs ++ [x]) i = plus1 (holders vs) (v_ptr x) i.
Proof.
  unfold holders, plus1. rewrite filter_app, app_length. cbn [filter]. rewrite <- holds_plus1.
  destruct (holds i x); reflexivity.
Qed.

Lemma plus1_swap f p q i g : (forall j, g j = plus1 f q j) -> plus1 (plus1 f p) q i = plus1 g p i.
Proof. intros H. unfold plus1 in *. rewrite H. lia. Qed.

Lemma holders_upd v x vs t p i : nth_error vs v = Some x ->
  holders vs i = plus1 (holders (upd v (Var t None) vs)) (v_ptr x) i /\
  holders (upd v (Var t p) vs) i = plus1 (holders (upd v (Var t None) vs)) p i.
Proof.
  revert v; induction vs as [|y vs IH]; intros [|v] H; cbn in H; try discriminate.
  - injection H as ->. cbn [upd]. unfold plus1. rewrite !holders_cons. unfold plus1; cbn [v_ptr]. lia.
  - cbn [upd]. destruct (IH v H) as [E1 E2]. unfold plus1 in *. rewrite !holders_cons. unfold plus1. rewrite E2, E1. lia.
Qed.

Lemma holders_in vs x i : In x vs -> v_ptr x = Some i -> 0 < holders vs i.
Proof.
  induction vs as [|y vs IH]; cbn [In]; intros H E; [contradiction|]. rewrite holders_cons. unfold plus1.
  destruct H as [->|H].
  - rewrite E, Nat.eqb_refl. lia.
  - specialize (IH H E). lia.
Qed.

Lemma holders_le vs i : holders vs i <= List.length vs.
Proof.
  unfold holders. induction vs as [|y vs IH]; cbn; [lia|]. destruct (holds i y); cbn [List.length]; lia.
Qed.

Definition typed (h : heap) (vs : list var) : Prop :=
  forall x i o, In x vs -> v_ptr x = Some i -> nth_error h i = Some (Some o) ->
  assoc (o_class o) implements = Some (v_type x).

Definition inv (s : state) : Prop := counts (st_heap s) (holders (st_vars s)) /\ typed (st_heap s) (st_vars s).

Lemma counts_ext h f g : (forall i, f i = g i) -> counts h f -> counts h g.
Proof. intros E C i. rewrite <- E. apply C. Qed.

Lemma counts_live h f i : counts h f -> 0 < f i -> exists o, nth_error h i = Some (Some o).
Proof. intros C P. pose proof (C i) as Ci. destruct (nth_error h i) as [[o|]|]; try lia. exists o; reflexivity. Qed.

Lemma counts_lt h f i : counts h f -> 0 < f i -> i < List.length h.
Proof. intros C P. destruct (counts_live h f i C P) as [o E]. apply nth_lt in E; exact E. Qed.

(** The variables that held objects of [h] have their types in any later heap. *)
Lemma typed_stable h h' f vs vs' : typed h vs -> stable h h' -> counts h f ->
  (forall x i, In x vs' -> v_ptr x = Some i -> (exists y, In y vs /\ v_ptr y = Some i /\ v_type y = v_type x) /\ 0 < f i) ->
  typed h' vs'.
Proof.
  intros Ty [_ St] C H x i o Hx Ep E. destruct (H x i Hx Ep) as ((y & Hy & Ey & Et) & P).
  destruct (St i o) as (o0 & E0 & Ec & _); [eapply counts_lt; eauto|assumption|].
  rewrite <- Ec, <- Et. eapply Ty; eauto.
Qed.

(** What the caller has to see to when calling [g]: the object is set up; not the index equal to the size for the
    functions with the wrong check; not the object itself as result for those that release first; an empty variable for
    the one that does not release. *)
Definition own_ok (g : getter) (p : ptr) : Prop :=
  match g_own g, p with
  | Embedded, _ => True
  | Checks _, Indet => False
  | Checks _, _ => True
  | Unchecked, To _ => True
  | Unchecked, _ => False
  end.

Definition careful_get (W : world) (g : getter) (at_ : nat) (p : ptr) (v w : nat) (out : option nat) : Prop :=
  In g getters /\ own_ok g p /\
  (forall r e d, g_kind g = KAt SizeLtAt r e -> p = To d -> at_ <> List.length (w_list W (g_name g) d)) /\
  (g_order g = ReleaseFirst -> v <> w) /\
  (g_order g = NoRelease -> out = None).

Definition right_iid (i : iid) (t : string) : Prop := forall c, class_of i = Some c -> assoc c implements = Some t.

Definition careful (W : world) (c : cmd) (s : state) : Prop :=
  match c with
  | CNewIid t i => right_iid i t
  | CQuery v i => forall x, nth_error (st_vars s) v = Some x -> right_iid i (v_type x)
  | CGet v g at_ w =>
    forall x y this o, nth_error (st_vars s) v = Some x -> nth_error (st_vars s) w = Some y ->
      v_ptr x = Some this -> nth_error (st_heap s) this = Some (Some o) ->
      careful_get W g at_ (o_ptr o) v w (v_ptr y)
  | _ => True
  end.

Definition guard_ok (g : getter) : bool :=
  match g_kind g with
  | KAt AtGtSize _ _ => false
  | KAt SizeLtAt _ _ => match g_own g with Checks _ => true | _ => false end
  | _ => true
  end.
Lemma all_guard_ok : forallb guard_ok getters = true.
Proof. vm_compute; reflexivity. Qed.

Lemma read_at_ok {A} gd r e (l : list A) at_ : (gd = AtGeSize \/ at_ <> List.length l) ->
  read_at gd r e l at_ = if Nat.ltb at_ (List.length l)
                         then match nth_error l at_ with Some p => VOk (inl p) | None => VUB end
                         else VOk (inr e).
Proof.
  intros H. unfold read_at, refuses. destruct (Nat.ltb_spec at_ (List.length l)) as [L|L].
  - destruct (nth_error l at_) eqn:E; [|apply nth_error_None in E; lia].
    destruct gd.
    + rewrite (proj2 (Nat.leb_gt _ _)) by lia. reflexivity.
    + rewrite (proj2 (Nat.ltb_ge _ _)) by lia. reflexivity.
    + rewrite (proj2 (Nat.ltb_ge _ _)) by lia. reflexivity.
  - destruct gd.
    + rewrite (proj2 (Nat.leb_le _ _)) by lia. reflexivity.
    + destruct H as [H|H]; [discriminate|]. rewrite (proj2 (Nat.ltb_lt _ _)) by lia. reflexivity.
    + destruct H as [H|H]; [discriminate|]. rewrite (proj2 (Nat.ltb_lt _ _)) by lia. reflexivity.
Qed.

Lemma read_at_total {A} gd r e (l : list A) at_ : (gd = AtGeSize \/ at_ <> List.length l) ->
  exists x, read_at gd r e l at_ = VOk x.
Proof.
  intros H. rewrite read_at_ok by exact H. destruct (Nat.ltb_spec at_ (List.length l)); [|eexists; reflexivity].
  destruct (nth_error l at_) eqn:E; [eexists; reflexivity|]. apply nth_error_None in E; lia.
Qed.

Lemma lookup_ok W g at_ p v w out : careful_get W g at_ p v w out -> exists x, lookup W g p at_ = VOk x.
Proof.
  intros (Hg & Ho & Hi & _). pose proof all_guard_ok as E. rewrite forallb_forall in E. apply E in Hg. clear E.
  assert (Go : forall d, (g_own g <> Embedded -> p = To d) ->
    exists x : ptr + N,
    match g_kind g with
    | KAt gd r err => do! x <- read_at gd r err (w_list W (g_name g) d) at_; VOk (match x with inl p0 => inl (To p0) | inr e => inr e end)
    | KOne chk => VOk (match w_one W (g_name g) d, chk with Some p0, _ => inl (To p0) | None, Some e => inr e | None, None => inl Null end)
    | KNew => VOk (inl (To (w_new W (g_name g) d)))
    end = VOk x).
  { intros d Hd. unfold guard_ok in Hg. destruct (g_kind g) as [gd r e|chk|] eqn:K; try (eexists; reflexivity).
    destruct (read_at_total gd r e (w_list W (g_name g) d) at_) as [x Ex].
    - destruct gd; [left; reflexivity| |discriminate]. right. eapply Hi; [reflexivity|].
      apply Hd. intros Heq. rewrite Heq in Hg. discriminate.
    - rewrite Ex. eexists; reflexivity. }
  unfold lookup. unfold own_ok in Ho. destruct (g_own g) as [e| |].
  - destruct p as [| |d]; [eexists; reflexivity|contradiction|]. apply Go; reflexivity.
  - destruct p as [| |d]; [contradiction|contradiction|]. apply Go; reflexivity.
  - destruct p as [| |d]; apply Go; intros H; exfalso; apply H; reflexivity.
Qed.

Lemma typed_new h vs vs' h' c p x : stable h h' -> counts h (holders vs) -> typed h vs ->
  (forall y i, In y vs' -> v_ptr y = Some i ->
     (exists z, In z vs /\ v_ptr z = Some i /\ v_type z = v_type y) \/ (y = x /\ i = List.length h')) ->
  assoc c implements = Some (v_type x) ->
  typed (h' ++ [Some (Obj c 1 p)]) vs'.
Proof.
  intros St C Ty H Hc y i o Hy Ep E. destruct (H y i Hy Ep) as [(z & Hz & Ez & Et)|[-> ->]].
  - assert (P := holders_in _ _ _ Hz Ez). assert (L := counts_lt _ _ _ C P).
    destruct St as [Hl St]. rewrite nth_error_app1 in E by lia.
    destruct (St i o L E) as (o0 & E0 & Ec & _). rewrite <- Ec, <- Et. eapply Ty; eauto.
  - rewrite nth_last in E. injection E as <-. exact Hc.
Qed.

Lemma in_upd {A} n (a x : A) l : In x (upd n a l) -> x = a \/ In x l.
Proof.
  revert n; induction l as [|y l IH]; intros [|n]; cbn; intros H; try tauto; destruct H as [H|H]; auto.
  destruct (IH _ H); auto.
Qed.

Lemma nth_in {A} (l : list A) n x : nth_error l n = Some x -> In x l.
Proof. apply nth_error_In. Qed.

(** The result of a call: an error that leaves everything, an error that empties the parameter, or a new object. *)
Lemma call_ok W h vs v w x y this o g at_ :
  inv (State h vs) -> nth_error vs v = Some x -> nth_error vs w = Some y -> v_ptr x = Some this ->
  nth_error h this = Some (Some o) -> o_class o = g_class g -> careful_get W g at_ (o_ptr o) v w (v_ptr y) ->
  v_type y = g_inter g ->
  exists h' p e, call W h this g at_ (v_ptr y) = VOk (h', p, e) /\ inv (State h' (set_ptr w y p vs)).
Proof.
  intros [C Ty] Ev Ew Ex Et Ec Ca Tyy. cbn [st_heap st_vars] in *.
  destruct (lookup_ok _ _ _ _ _ _ _ Ca) as [l El].
  destruct Ca as (Hg & _ & _ & Hrel & Hnon).
  unfold call. rewrite (deref_live _ _ _ Et). cbn [vbind]. rewrite Ec, String.eqb_refl. cbn [negb].
  rewrite El. cbn [vbind].
  set (f0 := holders (upd w (Var (v_type y) None) vs)).
  assert (F1 : forall j, holders vs j = plus1 f0 (v_ptr y) j) by (intros j; apply (holders_upd w y vs (v_type y) None j Ew)).
  assert (F2 : forall p j, holders (set_ptr w y p vs) j = plus1 f0 p j) by (intros p j; apply (holders_upd w y vs (v_type y) p j Ew)).
  destruct (release_opt_ok h (holders vs) f0 (v_ptr y) C F1) as (h1 & R1 & C1 & St1 & L1).
  assert (Hc : assoc (g_cast g) implements = Some (v_type y)).
  { destruct (getter_class g Hg) as (_ & _ & _ & H). rewrite Tyy. exact H. }
  (* the two ways to end *)
  assert (New : forall p0, inv (State (h1 ++ [Some (Obj (g_cast g) 1 p0)]) (set_ptr w y (Some (List.length h1)) vs))).
  { intros p0. split; cbn [st_heap st_vars].
    - eapply counts_ext; [intros j; symmetry; apply F2|]. apply new_counts. exact C1.
    - eapply typed_new with (h := h) (vs := vs) (x := Var (v_type y) (Some (List.length h1))); [exact St1|exact C|exact Ty| |exact Hc].
      intros z i Hz Ez. apply in_upd in Hz as [->|Hz]; [right|left; exists z; auto].
      cbn [v_ptr] in Ez. split; [reflexivity|congruence]. }
  assert (Empty : inv (State h1 (set_ptr w y None vs))).
  { split; cbn [st_heap st_vars].
    - eapply counts_ext; [intros j; symmetry; apply F2|]. eapply counts_ext; [|exact C1]. intros j; unfold plus1; lia.
    - eapply typed_stable; [exact Ty|exact St1|exact C|]. intros z i Hz Ez.
      apply in_upd in Hz as [->|Hz]; [discriminate Ez|]. split; [exists z; auto|eapply holders_in; eauto]. }
  assert (Same : inv (State h (set_ptr w y (v_ptr y) vs))).
  { split; cbn [st_heap st_vars].
    - eapply counts_ext; [intros j; symmetry; apply F2|]. eapply counts_ext; [exact F1|exact C].
    - eapply typed_stable; [exact Ty|apply stable_refl|exact C|]. intros z i Hz Ez.
      apply in_upd in Hz as [->|Hz].
      + cbn [v_ptr v_type] in *. assert (In y vs) by (eapply nth_in; eauto).
        split; [exists y; auto|eapply holders_in; eauto].
      + split; [exists z; auto|eapply holders_in; eauto]. }
  destruct (g_order g) eqn:Og.
  - destruct l as [p0|e].
    + rewrite make_ok by exact Hg. cbn [vbind]. rewrite (release_app _ _ _ _ R1). cbn [vbind].
      do 3 eexists; split; [reflexivity|]. rewrite <- L1. apply New.
    + destruct (g_clear g); [rewrite R1; cbn [vbind]|]; do 3 eexists; (split; [reflexivity|]); assumption.
  - rewrite R1. cbn [vbind]. destruct l as [p0|e].
    + rewrite make_ok by exact Hg. cbn [vbind]. do 3 eexists; split; [reflexivity|]. apply New.
    + do 3 eexists; split; [reflexivity|]. assumption.
  - destruct l as [p0|e].
    + rewrite R1. cbn [vbind].
      assert (P : 0 < f0 this).
      { eapply holders_in; [|exact Ex]. eapply nth_in. rewrite nth_upd_other; [exact Ev|]. specialize (Hrel eq_refl). auto. }
      destruct (counts_live _ _ _ C1 P) as [o1 E1]. rewrite (deref_live _ _ _ E1). cbn [vbind].
      assert (Lt : this < List.length h) by (eapply nth_lt; eauto).
      destruct (proj2 St1 this o1 Lt E1) as (o0 & E0 & _ & Ep). rewrite Et in E0. injection E0 as <-.
      rewrite <- Ep, El. cbn [vbind]. rewrite make_ok by exact Hg. cbn [vbind].
      do 3 eexists; split; [reflexivity|]. apply New.
    + do 3 eexists; split; [reflexivity|]. assumption.
  - destruct l as [p0|e].
    + rewrite make_ok by exact Hg. cbn [vbind]. do 3 eexists; split; [reflexivity|].
      specialize (Hnon eq_refl). rewrite Hnon in R1. cbn [release_opt] in R1. injection R1 as ->. apply New.
    + do 3 eexists; split; [reflexivity|]. assumption.
Qed.

Lemma query_ptr_cases h i :
  (class_of i = None /\ query_ptr h i = VOk (h, None)) \/
  (exists c, class_of i = Some c /\ query_ptr h i = VOk (h ++ [Some (Obj c 1 (fresh_ptr c))], Some (List.length h))).
Proof.
  unfold query_ptr. destruct (class_of i) as [c|] eqn:E.
  - right; exists c; split; [reflexivity|]. rewrite (query_ok _ _ _ None E). reflexivity.
  - left; split; [reflexivity|]. unfold query_interface. rewrite E. reflexivity.
Qed.

Definition good_res (W : world) (s : state) (r : vres state) : Prop :=
  match r with
  | VOk s' => inv s' /\ List.length (st_vars s') <= Datatypes.S (List.length (st_vars s))
  | VUB => False
  | VThrow => False
  | VNull => True
  | VBad => True
  end.

Lemma step_ok W c s : inv s -> (N.of_nat (List.length (st_vars s)) + 1 < 2 ^ 32)%N -> careful W c s ->
  good_res W s (step W c s).
Proof.
  destruct s as [h vs]. intros [C Ty] B Ca. cbn [st_heap st_vars] in *.
  assert (Same : forall x v, nth_error vs v = Some x -> forall i, v_ptr x = Some i ->
             0 < holders vs i /\ (N.of_nat (holders vs i) + 1 < 2 ^ 32)%N).
  { intros x v Hv i Hi. split; [eapply holders_in; [eapply nth_in; eauto|exact Hi]|].
    pose proof (holders_le vs i). lia. }
  assert (Empty : forall v x, nth_error vs v = Some x ->
            exists h1, release_opt h (v_ptr x) = VOk h1 /\ counts h1 (holders (upd v (Var (v_type x) None) vs)) /\
                       stable h h1 /\ List.length h1 = List.length h /\ inv (State h1 (set_ptr v x None vs))).
  { intros v x Hv.
    destruct (release_opt_ok h (holders vs) (holders (upd v (Var (v_type x) None) vs)) (v_ptr x) C) as (h1 & R1 & C1 & St1 & L1).
    { intros j; apply (holders_upd v x vs (v_type x) None j Hv). }
    exists h1. split; [exact R1|]. split; [exact C1|]. split; [exact St1|]. split; [exact L1|].
    split; cbn [st_heap st_vars]; [exact C1|].
    eapply typed_stable; [exact Ty|exact St1|exact C|]. intros z i Hz Ez.
    apply in_upd in Hz as [->|Hz]; [discriminate Ez|]. split; [exists z; auto|eapply holders_in; eauto]. }
  destruct c as [t|t i|v|v w|v|v i|v|v g at_ w|]; cbn [step st_heap st_vars].
  - cbn [good_res st_vars]. split; [|rewrite app_length; cbn; lia]. split; cbn [st_heap st_vars].
    + eapply counts_ext; [intros j; symmetry; apply holders_app|]. eapply counts_ext; [|exact C].
      intros j; unfold plus1; cbn [v_ptr]; lia.
    + intros x i o Hx Ep E. apply in_app_iff in Hx as [Hx|[<-|[]]]; [|discriminate Ep]. eapply Ty; eauto.
  - destruct (query_ptr_cases h i) as [[E1 E2]|(c & E1 & E2)]; rewrite E2; cbn [vbind good_res st_vars];
      (split; [|rewrite app_length; cbn; lia]); split; cbn [st_heap st_vars].
    + eapply counts_ext; [intros j; symmetry; apply holders_app|]. eapply counts_ext; [|exact C].
      intros j; unfold plus1; cbn [v_ptr]; lia.
    + intros x i0 o Hx Ep E. apply in_app_iff in Hx as [Hx|[<-|[]]]; [|discriminate Ep]. eapply Ty; eauto.
    + eapply counts_ext; [intros j; symmetry; apply holders_app|]. apply new_counts. exact C.
    + eapply typed_new with (h := h) (vs := vs) (x := Var t (Some (List.length h))); [apply stable_refl|exact C|exact Ty| |apply Ca; exact E1].
      intros y j Hy Ey. apply in_app_iff in Hy as [Hy|[<-|[]]]; [left; exists y; auto|right].
      cbn [v_ptr] in Ey. split; [reflexivity|congruence].
  - destruct (nth_error vs v) as [x|] eqn:Ev; [|exact I].
    destruct (add_ref_opt_ok h (holders vs) (v_ptr x) C (Same _ _ Ev)) as (h1 & R1 & C1 & St1 & L1).
    rewrite R1. cbn [vbind good_res st_vars]. split; [|rewrite app_length; cbn; lia]. split; cbn [st_heap st_vars].
    + eapply counts_ext; [intros j; symmetry; apply holders_app|]. exact C1.
    + eapply typed_stable; [exact Ty|exact St1|exact C|]. intros z i Hz Ez.
      apply in_app_iff in Hz as [Hz|[<-|[]]].
      * split; [exists z; auto|eapply holders_in; eauto].
      * cbn [v_ptr v_type] in *. assert (In x vs) by (eapply nth_in; eauto).
        split; [exists x; auto|eapply holders_in; eauto].
  - destruct (nth_error vs v) as [x|] eqn:Ev; [|exact I]. destruct (nth_error vs w) as [y|] eqn:Ew; [|exact I].
    destruct (String.eqb_spec (v_type x) (v_type y)) as [Etp|]; [|exact I].
    destruct (add_ref_opt_ok h (holders vs) (v_ptr y) C (Same _ _ Ew)) as (h1 & R1 & C1 & St1 & L1).
    rewrite R1. cbn [vbind].
    destruct (release_opt_ok h1 _ (holders (set_ptr v x (v_ptr y) vs)) (v_ptr x) C1) as (h2 & R2 & C2 & St2 & L2).
    { intros j. unfold set_ptr. destruct (holders_upd v x vs (v_type x) (v_ptr y) j Ev) as [H1 H2].
      unfold plus1 in *. rewrite H1, H2. lia. }
    rewrite R2. cbn [vbind good_res st_vars]. split; [|unfold set_ptr; rewrite upd_length; lia].
    split; cbn [st_heap st_vars]; [exact C2|].
    eapply typed_stable; [exact Ty|eapply stable_trans; [exact St1|exact St2]|exact C|]. intros z i Hz Ez.
    apply in_upd in Hz as [->|Hz].
    + cbn [v_ptr v_type] in *. assert (In y vs) by (eapply nth_in; eauto).
      split; [exists y; auto|eapply holders_in; eauto].
    + split; [exists z; auto|eapply holders_in; eauto].
  - destruct (nth_error vs v) as [x|] eqn:Ev; [|exact I]. destruct (Empty v x Ev) as (h1 & R1 & _ & _ & _ & Hi).
    rewrite R1. cbn [vbind good_res st_vars]. split; [exact Hi|unfold set_ptr; rewrite upd_length; lia].
  - destruct (nth_error vs v) as [x|] eqn:Ev; [|exact I]. destruct (Empty v x Ev) as (h1 & R1 & C1 & St1 & L1 & Hi).
    rewrite R1. cbn [vbind]. cbn [careful] in Ca. specialize (Ca x Ev).
    destruct (query_ptr_cases h1 i) as [[E1 E2]|(c & E1 & E2)]; rewrite E2; cbn [vbind good_res st_vars];
      (split; [|unfold set_ptr; rewrite upd_length; lia]).
    + exact Hi.
    + split; cbn [st_heap st_vars].
      * eapply counts_ext; [intros j; symmetry; apply (holders_upd v x vs (v_type x) (Some (List.length h1)) j Ev)|].
        apply new_counts. exact C1.
      * eapply typed_new with (h := h) (vs := vs) (x := Var (v_type x) (Some (List.length h1)));
          [exact St1|exact C|exact Ty| |apply Ca; exact E1].
        intros z j Hz Ez. apply in_upd in Hz as [->|Hz]; [right|left; exists z; auto].
        cbn [v_ptr] in Ez. split; [reflexivity|congruence].
  - destruct (nth_error vs v) as [x|] eqn:Ev; [|exact I]. destruct (Empty v x Ev) as (h1 & R1 & _ & _ & _ & Hi).
    rewrite R1. cbn [vbind good_res st_vars]. split; [exact Hi|unfold set_ptr; rewrite upd_length; lia].
  - destruct (nth_error vs v) as [x|] eqn:Ev; [|exact I]. destruct (nth_error vs w) as [y|] eqn:Ew; [|exact I].
    destruct (negb _) eqn:Et; [exact I|]. apply negb_false_iff, andb_prop in Et as [Et1 Et2].
    destruct (assoc (g_class g) implements) as [t|] eqn:Ei; [|discriminate].
    apply String.eqb_eq in Et1, Et2. destruct (v_ptr x) as [this|] eqn:Ex; [|exact I].
    assert (Hx : In x vs) by (eapply nth_in; eauto).
    destruct (counts_live _ _ _ C (holders_in _ _ _ Hx Ex)) as [o Eo].
    assert (Hcl : o_class o = g_class g).
    { pose proof (Ty x this o Hx Ex Eo) as H1. eapply implements_inj; [exact H1|]. rewrite Ei, Et1. reflexivity. }
    destruct (call_ok W h vs v w x y this o g at_ (conj C Ty) Ev Ew Ex Eo Hcl (Ca x y this o Ev Ew Ex Eo) Et2)
      as (h' & p & e & R & Hi).
    rewrite R. cbn [vbind good_res st_vars]. split; [exact Hi|unfold set_ptr; rewrite upd_length; lia].
  - destruct (rev vs) as [|x r] eqn:Er; [exact I|].
    assert (Evs : vs = rev r ++ [x]) by (rewrite <- (rev_involutive vs), Er; reflexivity).
    destruct (release_opt_ok h (holders vs) (holders (rev r)) (v_ptr x) C) as (h1 & R1 & C1 & St1 & L1).
    { intros j. rewrite Evs. apply holders_app. }
    rewrite R1. cbn [vbind good_res st_vars]. rewrite Evs, removelast_last. split; [|rewrite app_length; lia].
    split; cbn [st_heap st_vars]; [exact C1|].
    eapply typed_stable; [exact Ty|exact St1|exact C|]. intros z i Hz Ez.
    assert (In z vs) by (rewrite Evs; apply in_app_iff; left; exact Hz).
    split; [exists z; auto|eapply holders_in; eauto].
Qed.

(** Every command is careful in the state in which it is run. *)
Definition careful_run (W : world) (p : list cmd) (s : state) : Prop :=
  forall p1 c p2 s1, p = p1 ++ c :: p2 -> run W p1 s = VOk s1 -> careful W c s1.

Lemma run_ok W p s : inv s -> (N.of_nat (List.length (st_vars s) + List.length p) < 2 ^ 32)%N ->
  careful_run W p s ->
  match run W p s with VOk s' => inv s' | VUB => False | VThrow => False | _ => True end.
Proof.
  revert s; induction p as [|c p IH]; intros s Hi B Ca; [exact Hi|]. cbn [List.length] in B.
  cbn [run]. pose proof (step_ok W c s Hi) as H. 
  specialize (H ltac:(lia) (Ca [] c p s eq_refl eq_refl)).
  destruct (step W c s) as [s1| | | |] eqn:E; cbn [vbind good_res] in *; try exact I; try contradiction.
  destruct H as [H1 H2]. apply IH; [exact H1|lia|].
  intros p1 c1 p2 s2 -> R. apply (Ca (c :: p1) c1 p2 s2 eq_refl). cbn [run]. rewrite E. exact R.
Qed.

Lemma inv_start : inv (State [] []).
Proof. split; [intros i|intros x i o []]. cbn [st_heap st_vars]. destruct i; reflexivity. Qed.
