(** C138: the progress that is reported while a description is read. *)
From Coq Require Import List NArith Bool Lia Permutation.
From Verif Require Import ProgressModel.
Import ListNotations.
Open Scope N_scope.

Definition never : stops := Stops false false false false.

Lemma count_fold : forall (kids : list child) b, b < size_t -> fold_left (fun n _ => (n + 1) mod size_t) kids b = (b + N.of_nat (length kids)) mod size_t.
Proof.
  assert (Z : size_t <> 0) by discriminate. induction kids as [|k r IH]; intros b H; cbn [fold_left length].
  - rewrite N.add_0_r, N.mod_small by exact H. reflexivity.
  - rewrite IH by (apply N.mod_lt; exact Z). rewrite N.add_mod_idemp_l by exact Z. f_equal. lia.
Qed.

(** The total is one less than the number of children, if there are any. *)
Theorem C138_total : forall kids, kids <> [] -> N.of_nat (length kids) < size_t -> count_nodes 0 kids + 1 = N.of_nat (length kids).
Proof.
  intros kids K L. unfold count_nodes. assert (Z : size_t <> 0) by discriminate. rewrite count_fold by reflexivity. rewrite N.add_0_l, (N.mod_small (N.of_nat (length kids))) by exact L.
  assert (P : 0 < N.of_nat (length kids)) by (destruct kids; [congruence|cbn [length]; lia]). replace (N.of_nat (length kids) + (size_t - 1)) with (N.of_nat (length kids) - 1 + 1 * size_t) by (unfold size_t in *; lia).
  rewrite N.mod_add, N.mod_small by (try exact Z; lia). lia.
Qed.
(** A fixture element without children has more than any file could. *)
Theorem C138_none_refuted : exists kids, kids = [] /\ forall s, In s (progress never kids) -> snd s = 18446744073709551615.
Proof. exists []. split; [reflexivity|]. intros s H. vm_compute in H. repeat (destruct H as [<-|H]; [reflexivity|]). destruct H. Qed.

(** Every report is one further than the one before it and has the same total, wherever reading is stopped. *)
Theorem C138_steps : forall st kids i s, nth_error (progress st kids) i = Some s -> s = (N.of_nat i, count_nodes 0 kids).
Proof.
  intros st kids i s. unfold progress. generalize (count_nodes 0 kids). intros total. unfold feedback, protocols, descriptions, six.
  destruct (at_start st), (after_attributes st), (existsb is_protocols kids), (after_protocols st), (existsb is_descriptions kids), (after_descriptions st);
    do 9 (destruct i as [|i]; [cbn [nth_error]; intros H; first [discriminate H | injection H as <-; reflexivity] | cbn [nth_error]]); destruct i; cbn [nth_error]; discriminate.
Qed.

(** How many reports there are if nobody stops the reading, and so when the last one says that all is done. *)
Definition bit (b : bool) : N := if b then 1 else 0.
Theorem C138_reports : forall kids, N.of_nat (length (progress never kids)) = 7 + bit (existsb is_protocols kids) + bit (existsb is_descriptions kids).
Proof. intros kids. unfold progress, feedback, protocols, descriptions, six. cbn [at_start after_attributes after_protocols after_descriptions never]. destruct (existsb is_protocols kids), (existsb is_descriptions kids); reflexivity. Qed.
Theorem C138_end : forall kids, kids <> [] -> N.of_nat (length kids) < size_t ->
  (exists n, last (progress never kids) (0, 0) = (n, n)) <-> N.of_nat (length kids) = 7 + bit (existsb is_protocols kids) + bit (existsb is_descriptions kids).
Proof.
  intros kids K L. pose proof (C138_total kids K L) as T. unfold progress. set (t := count_nodes 0 kids) in *. unfold feedback, protocols, descriptions, six. cbn [at_start after_attributes after_protocols after_descriptions never]. rewrite <- T.
  destruct (existsb is_protocols kids), (existsb is_descriptions kids); cbn [last bit]; (split; [intros (n & H); injection H as H1 H2; subst; lia|intros H; exists t; f_equal; lia]).
Qed.
(** A file with each of the nine elements, in any order, is done at the end, and never before. *)
Definition nine : list child := [AttributeDefinitions; Wheels; PhysicalDescriptions; Models; Geometries; DMXModes; Revisions; FTPresets; Protocols].
Theorem C138_nine : forall kids, Permutation nine kids -> progress never kids = map (fun i => (i, 8)) [0; 1; 2; 3; 4; 5; 6; 7; 8].
Proof.
  intros kids P. pose proof (Permutation_length P) as L. assert (K : kids <> []) by (intros ->; discriminate L). pose proof (C138_total kids K) as T. rewrite <- L in T. assert (E : count_nodes 0 kids = 8) by (specialize (T eq_refl); cbn in T; lia).
  assert (X1 : existsb is_protocols kids = true) by (apply existsb_exists; exists Protocols; split; [apply (Permutation_in _ P); cbn; tauto|reflexivity]).
  assert (X2 : existsb is_descriptions kids = true) by (apply existsb_exists; exists PhysicalDescriptions; split; [apply (Permutation_in _ P); cbn; tauto|reflexivity]).
  unfold progress, feedback, protocols, descriptions. rewrite E, X1, X2. reflexivity.
Qed.
(** A file without the optional elements is reported to be done more than three times over, and one with more of them never. *)
Theorem C138_over_refuted : exists kids, In (6, 2) (progress never kids).
Proof. exists [AttributeDefinitions; Geometries; DMXModes]. vm_compute. tauto. Qed.
Theorem C138_under_refuted : exists kids, In Revisions kids /\ forall s, In s (progress never kids) -> fst s < snd s.
Proof. exists (nine ++ [Other]). split; [cbn; tauto|]. intros s H. vm_compute in H. repeat (destruct H as [<-|H]; [reflexivity|]). destruct H. Qed.

(** Cases meeting the hypotheses. *)
Example ex_total : count_nodes 0 [Geometries; DMXModes; Protocols] = 2. Proof. reflexivity. Qed.
Example ex_steps : progress (Stops false false true false) nine = [(0, 8); (1, 8)]. Proof. reflexivity. Qed.
Example ex_end : last (progress never (rev nine)) (0, 0) = (8, 8). Proof. reflexivity. Qed.
Example ex_nine : Permutation nine (rev nine). Proof. apply Permutation_rev. Qed.
Example ex_end_seven : last (progress never [AttributeDefinitions; Wheels; Models; Geometries; DMXModes; Revisions; FTPresets]) (0, 0) = (6, 6). Proof. reflexivity. Qed.

Print Assumptions C138_total.
Print Assumptions C138_none_refuted.
Print Assumptions C138_steps.
Print Assumptions C138_reports.
Print Assumptions C138_end.
Print Assumptions C138_nine.
Print Assumptions C138_over_refuted.
Print Assumptions C138_under_refuted.
