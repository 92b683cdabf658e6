(** C136: the unit of a sub physical unit. *)
From Coq Require Import List NArith String.
From Verif Require Import Bytes Txt StringModel EnumModel SubUnitModel.
Import ListNotations.
Open Scope N_scope.

(** Calls that leave the unit alone, and calls that leave the type alone. *)
Definition keeps_unit {D} (c : @call D) : Prop := match c with SetPhysicalFrom _ | SetPhysicalTo _ => True | _ => False end.
Definition keeps_type {D} (c : @call D) : Prop := match c with SetType _ => False | _ => True end.

Lemma run_keeps_unit : forall D (cs : list (@call D)) s, Forall keeps_unit cs -> su_unit (run s cs) = su_unit s /\ su_type (run s cs) = su_type s.
Proof.
  induction cs as [|c cs IH]; intros s F; [now split|]. inversion F as [|? ? K F']; subst. change (run s (c :: cs)) with (run (step s c) cs). destruct (IH (step s c) F') as (U & V). rewrite U, V. destruct c; cbn in *; tauto.
Qed.

Lemma run_app : forall D (a b : list (@call D)) s, run s (a ++ b) = run (run s a) b.
Proof. intros. apply fold_left_app. Qed.

(** The unit given last is the unit, if the type is not set after it. *)
Theorem C136_unit_set : forall D (s : @sub_unit D) before u after, Forall keeps_unit after -> su_unit (run s (before ++ SetPhysicalUnit u :: after)) = u.
Proof. intros D s b u a F. rewrite run_app. change (run (run s b) (SetPhysicalUnit u :: a)) with (run (step (run s b) (SetPhysicalUnit u)) a). exact (proj1 (run_keeps_unit D a (step (run s b) (SetPhysicalUnit u)) F)). Qed.

(** The type set last is the type. *)
Theorem C136_type_set : forall D (s : @sub_unit D) before t after, Forall keeps_type after -> su_type (run s (before ++ SetType t :: after)) = t.
Proof.
  intros D s b t a F. rewrite run_app. change (run (run s b) (SetType t :: a)) with (run (step (run s b) (SetType t)) a).
  assert (G : forall cs x, Forall keeps_type cs -> su_type (@run D x cs) = su_type x).
  { induction cs as [|c cs IH]; intros x K; [reflexivity|]. inversion K as [|? ? K1 K2]; subst. change (run x (c :: cs)) with (run (step x c) cs). rewrite (IH (step x c) K2). destruct c; cbn in *; tauto. }
  now rewrite (G a _ F).
Qed.

(** The two numbers are those set last, whatever is set beside them. *)
Definition keeps_from {D} (c : @call D) : Prop := match c with SetPhysicalFrom _ => False | _ => True end.
Definition keeps_to {D} (c : @call D) : Prop := match c with SetPhysicalTo _ => False | _ => True end.

Theorem C136_from_set : forall D (s : @sub_unit D) before x after, Forall keeps_from after -> su_from (run s (before ++ SetPhysicalFrom x :: after)) = x.
Proof.
  intros D s b x a F. rewrite run_app. change (run (run s b) (SetPhysicalFrom x :: a)) with (run (step (run s b) (SetPhysicalFrom x)) a).
  assert (G : forall cs y, Forall keeps_from cs -> su_from (@run D y cs) = su_from y).
  { induction cs as [|c cs IH]; intros y K; [reflexivity|]. inversion K as [|? ? K1 K2]; subst. change (run y (c :: cs)) with (run (step y c) cs). rewrite (IH (step y c) K2). destruct c; cbn in *; tauto. }
  now rewrite (G a _ F).
Qed.

Theorem C136_to_set : forall D (s : @sub_unit D) before x after, Forall keeps_to after -> su_to (run s (before ++ SetPhysicalTo x :: after)) = x.
Proof.
  intros D s b x a F. rewrite run_app. change (run (run s b) (SetPhysicalTo x :: a)) with (run (step (run s b) (SetPhysicalTo x)) a).
  assert (G : forall cs y, Forall keeps_to cs -> su_to (@run D y cs) = su_to y).
  { induction cs as [|c cs IH]; intros y K; [reflexivity|]. inversion K as [|? ? K1 K2]; subst. change (run y (c :: cs)) with (run (step y c) cs). rewrite (IH (step y c) K2). destruct c; cbn in *; tauto. }
  now rewrite (G a _ F).
Qed.

Example ex_to_set : su_to (run (create 0 4) [SetPhysicalFrom 1; SetPhysicalTo 6; SetType 2; SetPhysicalFrom 3]) = 6.
Proof. apply (C136_to_set N (create 0 4) [SetPhysicalFrom 1] 6 [SetType 2; SetPhysicalFrom 3]). repeat constructor. Qed.
Example ex_from_set : su_from (run (create 0 4) [SetPhysicalFrom 1; SetPhysicalTo 6; SetType 2]) = 1.
Proof. apply (C136_from_set N (create 0 4) [] 1 [SetPhysicalTo 6; SetType 2]). repeat constructor. Qed.

(** What is written for a type that was set, or created, and whose unit was not set after it: a placement offset is an angle, a
    duration a time, and everything else is in percent. *)
Definition texts_ok (w : list N * list N) : Prop :=
  (fst w = T"PlacementOffset" /\ snd w = T"Angle") \/ (fst w = T"Duration" /\ snd w = T"Time") \/
  (In (fst w) [T"Amplitude"; T"AmplitudeMin"; T"AmplitudeMax"; T"DutyCycle"; T"TimeOffset"; T"MinimumOpening"; T"Value"; T"RatioHorizontal"; T"RatioVertical"] /\ snd w = T"Percent").

Lemma texts_of_type : forall t, In t (et_values e_SubPhysicalUnitTypeEnum) -> texts_ok (enum_write e_SubPhysicalUnitTypeEnum t, enum_write e_PhysicalUnitEnum (unit_of_type t)).
Proof.
  intros t H. cbn [et_values e_SubPhysicalUnitTypeEnum] in H.
  repeat (destruct H as [<-|H]; [first [left; split; vm_compute; reflexivity | right; left; split; vm_compute; reflexivity | right; right; split; [vm_compute; tauto | vm_compute; reflexivity]]|]). destruct H.
Qed.

Theorem C136_written : forall D (s : @sub_unit D) before t after, In t (et_values e_SubPhysicalUnitTypeEnum) -> Forall keeps_unit after -> texts_ok (print (run s (before ++ SetType t :: after))).
Proof.
  intros D s b t a H F. unfold print. rewrite run_app. change (run (run s b) (SetType t :: a)) with (run (step (run s b) (SetType t)) a). destruct (run_keeps_unit D a (step (run s b) (SetType t)) F) as (-> & ->). now apply texts_of_type.
Qed.

Theorem C136_created : forall D (z : D) t cs, In t (et_values e_SubPhysicalUnitTypeEnum) -> Forall keeps_unit cs -> texts_ok (print (run (create z t) cs)).
Proof. intros D z t cs H F. unfold print. destruct (run_keeps_unit D cs (create z t) F) as (-> & ->). now apply texts_of_type. Qed.

(** Reading what was written gives the type and the unit back, also a unit that is not that of the type. *)
Theorem C136_read_back : forall D (s o : @sub_unit D), In (su_type s) (et_values e_SubPhysicalUnitTypeEnum) -> In (su_unit s) (et_values e_PhysicalUnitEnum) ->
  su_type (read o (fst (print s)) (snd (print s))) = su_type s /\ su_unit (read o (fst (print s)) (snd (print s))) = su_unit s.
Proof.
  intros D [t u f g] o H K. cbn [su_type su_unit] in H, K. unfold read, print. cbn [fst snd su_type su_unit]. split.
  - cbn [et_values e_SubPhysicalUnitTypeEnum] in H. repeat (destruct H as [<-|H]; [vm_compute; reflexivity|]). destruct H.
  - cbn [et_values e_PhysicalUnitEnum] in K. repeat (destruct K as [<-|K]; [vm_compute; reflexivity|]). destruct K.
Qed.

(** A node without a unit does not get that of its type: it has none, whatever the type. *)
Theorem C136_no_unit : forall D (o : @sub_unit D) ty, su_unit (read o ty (T"")) = 0.
Proof. intros. vm_compute. reflexivity. Qed.

Theorem C136_no_unit_refuted : exists ty t, su_type (read (fresh 0) ty (T"")) = t /\ su_unit (read (fresh 0) ty (T"")) <> su_unit (create 0 t).
Proof. exists (T"Duration"), 4. split; vm_compute; [reflexivity|discriminate]. Qed.

(** Setting the type after the unit forgets the unit. *)
Theorem C136_order_refuted : exists (t u : N), su_unit (run (fresh 0) [SetPhysicalUnit u; SetType t]) <> su_unit (run (fresh 0) [SetType t; SetPhysicalUnit u]).
Proof. exists 4, 9. vm_compute. discriminate. Qed.

(** Cases meeting the hypotheses. *)
Example ex_unit_set : su_unit (run (create 0 4) [SetType 0; SetPhysicalUnit 19; SetPhysicalTo 5; SetPhysicalFrom 2]) = 19.
Proof. apply (C136_unit_set N (create 0 4) [SetType 0] 19 [SetPhysicalTo 5; SetPhysicalFrom 2]). repeat constructor. Qed.
Example ex_type_set : su_type (run (create 0 4) [SetPhysicalFrom 1; SetType 6; SetPhysicalUnit 19]) = 6.
Proof. apply (C136_type_set N (create 0 4) [SetPhysicalFrom 1] 6 [SetPhysicalUnit 19]). repeat constructor. Qed.
Example ex_written : print (run (fresh 0) [SetPhysicalUnit 9; SetType 4; SetPhysicalTo 3]) = (T"Duration", T"Time").
Proof. vm_compute. reflexivity. Qed.
Example ex_read_back : let s := run (create 0 4) [SetPhysicalUnit 9] in In (su_type s) (et_values e_SubPhysicalUnitTypeEnum) /\ In (su_unit s) (et_values e_PhysicalUnitEnum) /\ print s = (T"Duration", T"Frequency").
Proof. vm_compute. tauto. Qed.

Print Assumptions C136_unit_set.
Print Assumptions C136_type_set.
Print Assumptions C136_written.
Print Assumptions C136_created.
Print Assumptions C136_read_back.
Print Assumptions C136_no_unit.
Print Assumptions C136_no_unit_refuted.
Print Assumptions C136_order_refuted.
Print Assumptions C136_from_set.
Print Assumptions C136_to_set.
