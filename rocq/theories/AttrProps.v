(** C55: attribute checking. *)
From Coq Require Import String List NArith Lia Bool.
From Verif Require Import Bytes Txt StringModel StringSpec StringProofs AttrModel.
Import ListNotations.
Open Scope N_scope.

(** The same name, upper and lower case not told apart. *)
Definition same (a b : list N) : Prop := map ascii_lower a = map ascii_lower b.
(** [a] is one of [l]. *)
Definition listed (a : list N) (l : list (list N)) : Prop := exists b, In b l /\ same a b.
(** [Select P f l r]: [r] has [f a] for every [a] of [l] with [P a], in order. *)
Inductive Select (P : list N -> Prop) (f : list N -> report) : list (list N) -> list report -> Prop :=
| sel_nil : Select P f [] []
| sel_in a l r : P a -> Select P f l r -> Select P f (a :: l) (f a :: r)
| sel_out a l r : ~ P a -> Select P f l r -> Select P f (a :: l) r.
(** No name twice. *)
Inductive Distinct : list (list N) -> Prop :=
| dist_nil : Distinct []
| dist_cons a l : ~ listed a l -> Distinct l -> Distinct (a :: l).

Lemma txeq_same a b : txeq a b = true <-> same a b.
Proof. rewrite txeq_lower. reflexivity. Qed.
Lemma same_sym a b : same a b -> same b a. Proof. unfold same. auto. Qed.
Lemma same_trans a b c : same a b -> same b c -> same a c. Proof. unfold same. congruence. Qed.
Lemma bucket_same h n a b : same a b -> bucket h n a = bucket h n b.
Proof. unfold same, bucket, tx_hash_no_case. intros H. change (make_lower a) with (map ascii_lower a). now rewrite H. Qed.

Section Hash.
Variable h : list N -> N.
Variable n : N.
(** The set holds (up to case) exactly the names satisfying [Q]; every element lies in its bucket. *)
Definition holds (m : uset) (Q : list N -> Prop) : Prop := forall k, uset_count h n m k = true <-> Q k.
Lemma count_iff m k : uset_count h n m k = true <-> exists x, In x (m (bucket h n k)) /\ same x k.
Proof.
  unfold uset_count. rewrite existsb_exists. split; intros (x & H & E); exists x; (split; [assumption|]); now apply txeq_same.
Qed.
Lemma insert_holds m Q a : holds m Q -> holds (uset_insert h n m a) (fun k => Q k \/ same k a).
Proof.
  intros H k. rewrite <- (H k). unfold uset_insert. destruct (uset_count h n m a) eqn:E.
  - split; [now left|]. intros [K|K]; [assumption|]. apply count_iff in E as (x & E1 & E2). apply count_iff.
    exists x. rewrite (bucket_same h n k a K). split; [assumption|]. apply (same_trans _ a); [assumption|now apply same_sym].
  - rewrite !count_iff. split.
    + intros (x & Hx & Sx). destruct (bucket h n k =? bucket h n a).
      * destruct Hx as [<-|Hx]; [right; now apply same_sym|left; eauto].
      * left. eauto.
    + intros [(x & Hx & Sx)|K].
      * exists x. split; [|assumption]. destruct (bucket h n k =? bucket h n a); [now right|assumption].
      * exists a. rewrite (bucket_same h n k a K), N.eqb_refl. split; [now left|now apply same_sym].
Qed.
Lemma erase_holds m Q a : holds m Q -> holds (uset_erase h n m a) (fun k => Q k /\ ~ same k a).
Proof.
  intros H k. rewrite <- (H k). unfold uset_erase. rewrite !count_iff. split.
  - intros (x & Hx & Sx). destruct (bucket h n k =? bucket h n a) eqn:E.
    + apply filter_In in Hx as (Hx & Nx). split; [eauto|]. intros K. apply negb_true_iff in Nx.
      assert (txeq x a = true) by (apply txeq_same; now apply (same_trans _ k)). congruence.
    + split; [eauto|]. intros K. rewrite (bucket_same h n k a K), N.eqb_refl in E. discriminate.
  - intros ((x & Hx & Sx) & K). exists x. split; [|assumption]. destruct (bucket h n k =? bucket h n a); [|assumption].
    apply filter_In. split; [assumption|]. apply negb_true_iff. destruct (txeq x a) eqn:E; [|reflexivity].
    apply txeq_same in E. exfalso. apply K. apply (same_trans _ x); [now apply same_sym|assumption].
Qed.
Lemma holds_ext m Q Q' : (forall k, Q k <-> Q' k) -> holds m Q -> holds m Q'.
Proof. intros E H k. rewrite (H k). apply E. Qed.
Lemma fill_holds raw : forall m Q, holds m Q -> holds (fold_left (uset_insert h n) raw m) (fun k => Q k \/ listed k raw).
Proof.
  induction raw as [|a raw IH]; intros m Q H; cbn [fold_left].
  - eapply holds_ext; [|exact H]. intros k. split; [now left|]. intros [K|(b & [] & _)]. assumption.
  - eapply holds_ext; [|apply IH, insert_holds, H]. intros k. unfold listed. split.
    + intros [[K|K]|(b & Hb & K)]; [now left|right; exists a; split; [now left|assumption]|right; exists b; split; [now right|assumption]].
    + intros [K|(b & [<-|Hb] & K)]; [left; now left|left; now right|right; eauto].
Qed.
Lemma erase_all_holds l : forall m Q, holds m Q -> holds (erase_all h n m l) (fun k => Q k /\ ~ listed k l).
Proof.
  unfold erase_all. induction l as [|a l IH]; intros m Q H; cbn [fold_left].
  - eapply holds_ext; [|exact H]. intros k. split; [|tauto]. intros K. split; [assumption|]. intros (b & [] & _).
  - eapply holds_ext; [|apply IH, erase_holds, H]. intros k. unfold listed. split.
    + intros ((K1 & K2) & K3). split; [assumption|]. intros (b & [<-|Hb] & K); [contradiction|]. apply K3. eauto.
    + intros (K1 & K2). split; [split; [assumption|]|]; intros K; apply K2; [exists a; split; [now left|assumption]|].
      destruct K as (b & Hb & K). exists b. split; [now right|assumption].
Qed.
Lemma needed_holds l : forall m Q, holds m Q -> Distinct l ->
  holds (fst (check_needed h n m l)) (fun k => Q k /\ ~ listed k l)
  /\ Select (fun a => ~ Q a) Missing l (snd (check_needed h n m l)).
Proof.
  induction l as [|a l IH]; intros m Q H D; cbn [check_needed].
  - split; [|constructor]. cbn [fst]. eapply holds_ext; [|exact H]. intros k. split; [|tauto]. intros K. split; [assumption|]. intros (b & [] & _).
  - inversion_clear D as [|? ? Na D']. destruct (IH _ _ (erase_holds m Q a H) D') as (I1 & I2).
    destruct (check_needed h n (uset_erase h n m a) l) as (m', e) eqn:E. cbn [fst snd] in *. split.
    + eapply holds_ext; [|exact I1]. intros k. unfold listed. split.
      * intros ((K1 & K2) & K3). split; [assumption|]. intros (b & [<-|Hb] & K); [contradiction|]. apply K3. eauto.
      * intros (K1 & K2). split; [split; [assumption|]|]; intros K; apply K2; [exists a; split; [now left|assumption]|].
        destruct K as (b & Hb & K). exists b. split; [now right|assumption].
    + assert (S : Select (fun a => ~ Q a) Missing l e).
      { clear -I2 Na. assert (G : forall l', (forall x, In x l' -> In x l) -> forall e, Select (fun x => ~ (Q x /\ ~ same x a)) Missing l' e ->
          Select (fun x => ~ Q x) Missing l' e).
        { intros l' Sub e' S. induction S as [|b l' r P S IH|b l' r P S IH].
          - constructor.
          - apply sel_in; [|apply IH; intros; apply Sub; now right]. intros K. apply P. split; [assumption|]. intros K2.
            apply Na. exists b. split; [apply Sub; now left|now apply same_sym].
          - apply sel_out; [|apply IH; intros; apply Sub; now right]. intros K. apply P. intros (K1 & _). contradiction. }
        apply (G l); auto. }
      destruct (uset_count h n m a) eqn:C.
      * apply sel_out; [|assumption]. intros K. apply K. now apply H.
      * apply sel_in; [|assumption]. intros K. apply H in K. congruence.
Qed.
Lemma filter_select (c : list N -> bool) P l : (forall a, In a l -> (c a = true <-> P a)) ->
  Select P Unexpected l (map Unexpected (filter c l)).
Proof.
  induction l as [|a l IH]; intros H; [constructor|]. cbn [filter]. pose proof (H a (or_introl eq_refl)) as Ha.
  assert (S : Select P Unexpected l (map Unexpected (filter c l))) by (apply IH; intros; apply H; now right).
  destruct (c a); [apply sel_in|apply sel_out]; try assumption; [now apply Ha|]. intros K. apply Ha in K. discriminate.
Qed.
End Hash.

(** The reports are: the mandatory attributes that the node does not have, then the attributes of the
    node that are neither mandatory nor optional, each in its order; for every hash function and
    number of buckets. *)
Theorem C55_reports_partial : forall h n raw needed optional, Distinct needed ->
  exists e1 e2, check_node_attributes h n raw needed optional = e1 ++ e2
    /\ Select (fun a => ~ listed a raw) Missing needed e1
    /\ Select (fun a => ~ listed a needed /\ ~ listed a optional) Unexpected raw e2.
Proof.
  intros h n raw needed optional D. unfold check_node_attributes.
  assert (H0 : holds h n (fun _ => []) (fun _ => False)) by (intros k; unfold uset_count; cbn; split; [discriminate|tauto]).
  pose proof (fill_holds h n raw _ _ H0) as H1.
  destruct (needed_holds h n needed _ _ H1 D) as (H2 & S). destruct (check_needed _ _ _ _) as (m', e). cbn [fst snd] in *.
  pose proof (erase_all_holds h n optional _ _ H2) as H3.
  eexists. eexists. split; [reflexivity|]. split.
  - clear -S. induction S as [|a l r P S IH|a l r P S IH]; [constructor|apply sel_in|apply sel_out]; try assumption; tauto.
  - apply filter_select. intros a Ha. rewrite (H3 a). split; [tauto|]. intros (K1 & K2). split; [|assumption]. split; [|assumption].
    right. exists a. split; [assumption|reflexivity].
Qed.
Print Assumptions C55_reports_partial.
(** The selection is unique, so the theorem fixes the reports. *)
Theorem C55_unique : forall P f l r r', Select P f l r -> Select P f l r' -> r = r'.
Proof.
  induction l as [|a l IH]; intros r r' S1 S2; inversion S1; inversion S2; subst; try contradiction; try reflexivity; [f_equal|]; now apply IH.
Qed.
Print Assumptions C55_unique.
(** A name listed twice as mandatory is reported missing although it is there. *)
Theorem C55_repeated_refuted : exists h n raw needed optional a, listed a raw /\ In (Missing a) (check_node_attributes h n raw needed optional).
Proof.
  exists (fun _ => 0), 1, [T"Name"], [T"Name"; T"name"], [], (T"name"). split.
  - exists (T"Name"). split; [now left|reflexivity].
  - vm_compute. now left.
Qed.
Print Assumptions C55_repeated_refuted.
Example C55_case : Distinct [T"Name"; T"Mode"]
  /\ check_node_attributes (fun s => nlen s) 13 [T"name"; T"Foo"; T"Geometry"; T"foo"] [T"Name"; T"Mode"] [T"geometry"]
     = [Missing (T"Mode"); Unexpected (T"Foo"); Unexpected (T"foo")].
Proof.
  split; [|vm_compute; reflexivity].
  constructor; [intros (b & [<-|[]] & K); discriminate K|]. constructor; [intros (b & [] & _)|constructor].
Qed.
