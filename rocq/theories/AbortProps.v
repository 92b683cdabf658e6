(** C137: stopping the reading of a description. *)
From Coq Require Import List NArith Bool Lia.
From Verif Require Import AbortModel.
Import ListNotations.
Open Scope N_scope.

(** The elements that become objects if nobody stops the reading, and the names of the elements in the order of the file. *)
Fixpoint full (want : N -> N -> bool) (n : node) : node :=
  match n with Node t cs => Node t (flat_map (fun c => if want t (name_of c) then [full want c] else []) cs) end.
Fixpoint names (n : node) : list N := match n with Node t cs => t :: flat_map names cs end.

Lemma full_eq want t cs : full want (Node t cs) = Node t (map (full want) (filter (fun c => want t (name_of c)) cs)).
Proof. cbn [full]. f_equal. induction cs as [|c r IH]; [reflexivity|]. cbn [flat_map filter]. rewrite IH. destruct (want t (name_of c)); reflexivity. Qed.
Lemma node_ind' (P : node -> Prop) : (forall t cs, Forall P cs -> P (Node t cs)) -> forall n, P n.
Proof.
  intros H. fix IH 1. intros [t cs]. apply H. induction cs as [|c r IHr]; constructor; [apply IH|exact IHr].
Qed.

Lemma read_unfold S cb want t cs (s : S) : read_node cb want (Node t cs) s = let (ks, s') := traverse cb want (read_node cb want) t cs s in (Node t ks, s').
Proof. reflexivity. Qed.

(** Without a callback, or with one that never stops, all the wanted elements are read, in order. *)
Theorem C137_all_read : forall S (cb : option (S -> bool * S)) want n s, (forall ask, cb = Some ask -> forall x, fst (ask x) = false) -> fst (read_node cb want n s) = full want n.
Proof.
  intros S cb want n s H. revert s. induction n as [t cs IH] using node_ind'. intros s. rewrite read_unfold, full_eq.
  assert (E : forall s, fst (traverse cb want (read_node cb want) t cs s) = map (full want) (filter (fun c => want t (name_of c)) cs)).
  { induction cs as [|c r IHr]; intros x; [reflexivity|]. inversion IH as [|? ? Hc Hr]; subst. cbn [traverse filter]. destruct (want t (name_of c)); [|apply IHr; exact Hr].
    assert (C : fst (check cb x) = false) by (unfold check; destruct cb as [ask|]; [apply (H ask eq_refl)|reflexivity]). destruct (check cb x) as [b s1]. cbn [fst] in C. subst b.
    specialize (Hc s1). destruct (read_node cb want c s1) as [k s2]. specialize (IHr Hr s2). destruct (traverse cb want (read_node cb want) t r s2) as [ks s3]. cbn [fst map] in *. rewrite Hc, IHr. reflexivity. }
  specialize (E s). destruct (traverse cb want (read_node cb want) t cs s) as [ks s']. cbn [fst] in *. rewrite E. reflexivity.
Qed.

(** A callback that keeps saying stop once it has said so. *)
Definition latched {S} (ask : S -> bool * S) : Prop := forall s, fst (ask s) = true -> fst (ask (snd (ask s))) = true.

Lemma traverse_stopped S (ask : S -> bool * S) want t : latched ask -> forall cs s, fst (ask s) = true -> fst (traverse (Some ask) want (read_node (Some ask) want) t cs s) = [] /\ fst (ask (snd (traverse (Some ask) want (read_node (Some ask) want) t cs s))) = true.
Proof.
  intros L cs. induction cs as [|c r IH]; intros s H; [split; [reflexivity|exact H]|]. cbn [traverse]. destruct (want t (name_of c)); [|apply IH; exact H].
  pose proof (L s H) as L1. unfold check. destruct (ask s) as [b s1]. cbn [fst snd] in H, L1. subst b. apply IH. exact L1.
Qed.

(** What such a callback lets be read is the beginning of what would be read without it, in the order of the file. *)
Theorem C137_prefix : forall S (ask : S -> bool * S) want n s, latched ask -> exists rest, names (full want n) = names (fst (read_node (Some ask) want n s)) ++ rest.
Proof.
  intros S ask want n s L.
  assert (G : forall n s, fst (read_node (Some ask) want n s) = full want n \/ (fst (ask (snd (read_node (Some ask) want n s))) = true /\ exists rest, names (full want n) = names (fst (read_node (Some ask) want n s)) ++ rest)).
  { clear n s. induction n as [t cs IH] using node_ind'. intros s. rewrite read_unfold, full_eq.
    assert (E : forall s, let r := traverse (Some ask) want (read_node (Some ask) want) t cs s in fst r = map (full want) (filter (fun c => want t (name_of c)) cs) \/ (fst (ask (snd r)) = true /\ exists rest, flat_map names (map (full want) (filter (fun c => want t (name_of c)) cs)) = flat_map names (fst r) ++ rest)).
    { induction cs as [|c r IHr]; intros x; [left; reflexivity|]. inversion IH as [|? ? Hc Hr]; subst. cbn [traverse filter]. destruct (want t (name_of c)) eqn:W; [|apply IHr; exact Hr].
      pose proof (L x) as Lx. unfold check. destruct (ask x) as [[|] s1] eqn:A; cbn [fst snd] in Lx.
      - right. destruct (traverse_stopped S ask want t L r s1 (Lx eq_refl)) as (E1 & E2). cbv zeta. rewrite E1. split; [exact E2|]. eexists. reflexivity.
      - specialize (Hc s1). destruct (read_node (Some ask) want c s1) as [k s2]. cbn [fst snd] in Hc. cbn [map flat_map]. destruct Hc as [->|(St & rest & ->)].
        + specialize (IHr Hr s2). cbv zeta in IHr. destruct (traverse (Some ask) want (read_node (Some ask) want) t r s2) as [ks s3]. cbn [fst snd] in *. destruct IHr as [->|(St & rest & ->)]; [left; reflexivity|]. right. split; [exact St|]. exists rest. cbn [flat_map]. rewrite app_assoc. reflexivity.
        + right. destruct (traverse_stopped S ask want t L r s2 St) as (E1 & E2). destruct (traverse (Some ask) want (read_node (Some ask) want) t r s2) as [ks s3]. cbn [fst snd] in *. subst ks. split; [exact E2|]. cbn [flat_map]. rewrite app_nil_r, <- app_assoc. eexists. reflexivity. }
    specialize (E s). cbv zeta in E. destruct (traverse (Some ask) want (read_node (Some ask) want) t cs s) as [ks s']. cbn [fst snd] in *. destruct E as [->|(St & rest & E)]; [left; reflexivity|]. right. split; [exact St|]. exists rest. cbn [names]. rewrite E. reflexivity. }
  destruct (G n s) as [E|(_ & R)]; [exists []; rewrite E, app_nil_r; reflexivity|exact R].
Qed.

(** After a stop nothing more is read below an object, whatever was wanted. *)
Theorem C137_stopped : forall S (ask : S -> bool * S) want t cs s, latched ask -> fst (ask s) = true -> fst (read_node (Some ask) want (Node t cs) s) = Node t [].
Proof. intros S ask want t cs s L H. rewrite read_unfold. destruct (traverse_stopped S ask want t L cs s H) as (E & _). destruct (traverse (Some ask) want (read_node (Some ask) want) t cs s) as [ks s']. cbn [fst] in *. rewrite E. reflexivity. Qed.

(** But the traversal is not ended: the callback is asked again for every wanted child that is left.  The state of this callback
    is the number of times it was asked. *)
Theorem C137_keeps_asking : forall want t cs (asked : N), snd (read_node (Some (fun k => (true, k + 1))) want (Node t cs) asked) = asked + N.of_nat (length (filter (fun c => want t (name_of c)) cs)).
Proof.
  intros want t cs k. rewrite read_unfold. assert (E : forall k, snd (traverse (Some (fun k => (true, k + 1))) want (read_node (Some (fun k => (true, k + 1))) want) t cs k) = k + N.of_nat (length (filter (fun c => want t (name_of c)) cs))).
  { induction cs as [|c r IH]; intros x; [cbn; lia|]. cbn [traverse filter]. destruct (want t (name_of c)); [|apply IH]. cbn [check]. rewrite IH. cbn [length]. lia. }
  specialize (E k). destruct (traverse _ want _ t cs k) as [ks s']. exact E.
Qed.

(** So one stop does not stop: a callback that says stop once, for the second child, loses that child only. *)
Definition wheel : node := Node 0 [Node 1 []; Node 2 [Node 5 []]; Node 3 []].
Definition once (k : N) : bool * N := (k =? 1, k + 1).
Theorem C137_once_refuted : exists ask n, names (fst (read_node (Some ask) (fun _ _ => true) n 0)) = [0; 1; 3] /\ names (full (fun _ _ => true) n) = [0; 1; 2; 5; 3] /\
  ~ exists rest, names (full (fun _ _ => true) n) = names (fst (read_node (Some ask) (fun _ _ => true) n 0)) ++ rest.
Proof. exists once, wheel. split; [reflexivity|split; [reflexivity|]]. intros (rest & H). vm_compute in H. discriminate. Qed.

(** Cases meeting the hypotheses: a callback that stops from the third time on, and one that never does. *)
Definition from_third (k : N) : bool * N := (2 <=? k, k + 1).
Example ex_latched : latched from_third.
Proof. intros s H. unfold from_third in *. cbn [fst snd] in *. apply N.leb_le in H. apply N.leb_le. lia. Qed.
Example ex_prefix : names (fst (read_node (Some from_third) (fun _ _ => true) wheel 0)) = [0; 1; 2]. Proof. reflexivity. Qed.
Example ex_wanted : fst (read_node (@None (N -> bool * N)) (fun _ c => negb (c =? 2)) wheel 0) = Node 0 [Node 1 []; Node 3 []]. Proof. reflexivity. Qed.
Example ex_asked : snd (read_node (Some (fun k => (true, k + 1))) (fun _ _ => true) wheel 7) = 10. Proof. reflexivity. Qed.

Print Assumptions C137_all_read.
Print Assumptions C137_prefix.
Print Assumptions C137_stopped.
Print Assumptions C137_keeps_asking.
Print Assumptions C137_once_refuted.
