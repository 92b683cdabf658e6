(** C38, C65: enumeration attributes. *)
From Coq Require Import List NArith String Bool Lia.
From Verif Require Import Bytes Txt StringModel StringProofs EnumModel.
Import ListNotations.
Open Scope N_scope.

Definition check_table (t : enum_table) : bool :=
  forallb (fun v =>
    match find (fun p => txeq (enum_write t v) (fst p)) (et_read t) with
    | Some p => snd p =? v
    | None => false
    end) (et_values t).

Lemma check_table_ok t : check_table t = true ->
  forall v old, In v (et_values t) -> enum_read t old (enum_write t v) = (v, false).
Proof.
  intros H v old Hv. unfold check_table in H. rewrite forallb_forall in H. specialize (H v Hv).
  unfold enum_read. destruct find as [p|]; [|discriminate]. apply N.eqb_eq in H. rewrite H. reflexivity.
Qed.

(** C38: every enumerator of every table, written and read back, whatever the variable that
    receives it held before; no parsing error is reported. *)
Theorem C38_enum_roundtrip : forall t v old, In t enum_tables -> In v (et_values t) ->
  enum_read t old (enum_write t v) = (v, false).
Proof.
  intros t v old Ht Hv. apply check_table_ok; [|exact Hv].
  assert (H : forallb check_table enum_tables = true) by (vm_compute; reflexivity).
  rewrite forallb_forall in H. exact (H t Ht).
Qed.
Print Assumptions C38_enum_roundtrip.
Example C38_case : In e_EGdtfColorSampleEnum enum_tables /\ In 41 (et_values e_EGdtfColorSampleEnum)
  /\ enum_write e_EGdtfColorSampleEnum 41 = T"CES42"
  /\ enum_read e_EGdtfColorSampleEnum 7 T"CES42" = (41, false).
Proof.
  split; [do 8 right; left; reflexivity|].
  split; [|vm_compute; split; reflexivity].
  assert (H : existsb (N.eqb 41) (et_values e_EGdtfColorSampleEnum) = true) by reflexivity.
  apply existsb_exists in H. destruct H as (x & Hx & E). apply N.eqb_eq in E. subst. exact Hx.
Qed.

(** Two different enumerators are never written alike, not even up to the case of letters. *)
Theorem C38_enum_distinct : forall t v w, In t enum_tables -> In v (et_values t) -> In w (et_values t) ->
  make_lower (enum_write t v) = make_lower (enum_write t w) -> v = w.
Proof.
  intros t v w Ht Hv Hw E.
  pose proof (C38_enum_roundtrip t v 0 Ht Hv) as Rv. pose proof (C38_enum_roundtrip t w 0 Ht Hw) as Rw.
  unfold enum_read in *.
  assert (Q : forall l : list (list N * N), find (fun p => txeq (enum_write t v) (fst p)) l
            = find (fun p => txeq (enum_write t w) (fst p)) l).
  { intros l. induction l as [|p l IH]; [reflexivity|]. cbn [find].
    assert (txeq (enum_write t v) (fst p) = txeq (enum_write t w) (fst p)) as ->.
    { apply eq_true_iff_eq. rewrite !txeq_lower. rewrite E. reflexivity. }
    rewrite IH. reflexivity. }
  rewrite Q in Rv. congruence.
Qed.
Print Assumptions C38_enum_distinct.

(** The case of ASCII letters in the document does not matter. *)
Theorem C38_enum_any_case : forall t old s s', In t enum_tables -> make_lower s = make_lower s' ->
  enum_read t old s = enum_read t old s'.
Proof.
  intros t old s s' _ E. unfold enum_read.
  assert (find (fun p => txeq s (fst p)) (et_read t) = find (fun p => txeq s' (fst p)) (et_read t)) as ->.
  { induction (et_read t) as [|p l IH]; [reflexivity|]. cbn [find].
    assert (txeq s (fst p) = txeq s' (fst p)) as ->.
    { apply eq_true_iff_eq. rewrite !txeq_lower, E. reflexivity. }
    rewrite IH. reflexivity. }
  reflexivity.
Qed.
Print Assumptions C38_enum_any_case.
Example C38_any_case_ex : make_lower T"wASH" = make_lower T"Wash" /\ enum_read e_BeamType 5 T"wASH" = (0, false).
Proof. vm_compute. split; reflexivity. Qed.

Theorem C38_bool_roundtrip : forall v, bool_read (bool_write v) = (v, true).
Proof. intros []; vm_compute; reflexivity. Qed.
Print Assumptions C38_bool_roundtrip.

(** C65: a text that is not the written form of any enumerator (up to case) and not empty.  For the
    tables with [et_reports] a parsing error is added ... *)
Definition foreign (t : enum_table) (s : list N) : Prop :=
  s <> [] /\ forall v, In v (et_values t) -> make_lower s <> make_lower (enum_write t v).

(** Every reader entry is the empty text or the text the writer uses for that entry's number. *)
Definition check_reads (t : enum_table) : bool :=
  forallb (fun p => match fst p with
    | [] => true
    | _ :: _ => existsb (N.eqb (snd p)) (et_values t) && txeq (fst p) (enum_write t (snd p))
    end) (et_read t).
Lemma foreign_no_match t s : check_reads t = true -> foreign t s ->
  find (fun p => txeq s (fst p)) (et_read t) = None.
Proof.
  intros H [Hne Hf]. unfold check_reads in H. rewrite forallb_forall in H.
  destruct find as [p|] eqn:E; [|reflexivity]. exfalso. apply find_some in E. destruct E as [Hp Ep].
  specialize (H p Hp). apply txeq_lower in Ep.
  destruct (fst p) as [|c r] eqn:Ef.
  - destruct s; [apply Hne; reflexivity | discriminate].
  - apply andb_true_iff in H. destruct H as [H1 H2]. apply existsb_exists in H1.
    destruct H1 as (x & Hx & Ex). apply N.eqb_eq in Ex. subst x. apply txeq_lower in H2.
    apply (Hf (snd p) Hx). rewrite Ep. exact H2.
Qed.
Lemma all_reads : forall t, In t enum_tables -> check_reads t = true.
Proof.
  assert (H : forallb check_reads enum_tables = true) by (vm_compute; reflexivity).
  rewrite forallb_forall in H. exact H.
Qed.

Definition reporting : list enum_table :=
  [e_PrimitiveType; e_SpecialAttrEnum; e_PhysicalUnitEnum; e_BeamType; e_LampeType; e_SnapEnum;
   e_MasterEnum; e_RelationEnum; e_EGdtfColorSampleEnum; e_EGdtfColorSpace; e_EGdtfInterpolationTo;
   e_CanHaveChildren].
Lemma in_reporting t : In t reporting -> In t enum_tables /\ et_reports t = true.
Proof.
  intros H. split.
  - cbv [reporting enum_tables In] in *. tauto.
  - assert (Q : forallb et_reports reporting = true) by reflexivity.
    rewrite forallb_forall in Q. exact (Q t H).
Qed.
(** ... and the value falls back to the default of the table (for the colour samples and the colour
    space the receiving variable is left unchanged) ... *)
Theorem C65_unknown_reported_partial : forall t old s, In t reporting -> foreign t s ->
  snd (enum_read t old s) = true
  /\ (In (fst (enum_read t old s)) (et_values t) \/ fst (enum_read t old s) = old).
Proof.
  intros t old s Ht Hf. destruct (in_reporting t Ht) as [Hin Hr]. unfold enum_read.
  rewrite (foreign_no_match t s (all_reads t Hin) Hf). cbn [fst snd]. split; [exact Hr|].
  destruct (et_read_other t) as [d|] eqn:E; [|right; reflexivity]. left.
  assert (Q : forallb (fun t => match et_read_other t with
            | Some d => existsb (N.eqb d) (et_values t) | None => true end) enum_tables = true)
    by (vm_compute; reflexivity).
  rewrite forallb_forall in Q. specialize (Q t Hin). cbv beta in Q. rewrite E in Q.
  apply existsb_exists in Q. destruct Q as (x & Hx & Ex). apply N.eqb_eq in Ex. subst x. exact Hx.
Qed.
Print Assumptions C65_unknown_reported_partial.
Example C65_case : In e_BeamType reporting /\ foreign e_BeamType T"Wosh"
  /\ enum_read e_BeamType 5 T"Wosh" = (0, true).
Proof.
  split; [do 3 right; left; reflexivity|]. split; [|reflexivity]. split; [discriminate|].
  intros v Hv. repeat (destruct Hv as [<-|Hv]; [vm_compute; discriminate|]). contradiction.
Qed.
(** No known text (and not the empty text, where the reader has an entry for it) is reported. *)
Theorem C65_known_not_reported : forall t v old s, In t enum_tables -> In v (et_values t) ->
  make_lower s = make_lower (enum_write t v) -> enum_read t old s = (v, false).
Proof.
  intros t v old s Ht Hv E. rewrite (C38_enum_any_case t old s _ Ht E). apply C38_enum_roundtrip; assumption.
Qed.
Print Assumptions C65_known_not_reported.
(** ... but eleven readers replace an unknown text by their default silently. *)
Theorem C65_unknown_silent_refuted : exists t old s, In t enum_tables /\ foreign t s
  /\ enum_read t old s = (0, false).
Proof.
  exists e_ComponentTypeEnum, 3, (T"Imput"). split; [do 14 right; left; reflexivity|]. split; [|reflexivity].
  split; [discriminate|].
  intros v Hv. repeat (destruct Hv as [<-|Hv]; [vm_compute; discriminate|]). contradiction.
Qed.
Print Assumptions C65_unknown_silent_refuted.
Definition silent : list enum_table :=
  [e_SourceType; e_ScaleHandlingType; e_LaserColorTypeEnum; e_ComponentTypeEnum; e_OrientationEnum;
   e_FuseRatingEnum; e_StructureTypeEnum; e_CrossSectionTypeEnum; e_SupportTypeEnum;
   e_SubPhysicalUnitTypeEnum; e_TransmissionTypeEnum].
Theorem C65_silent_tables : forall t old s, In t silent -> foreign t s ->
  snd (enum_read t old s) = false /\ et_read_other t = Some (fst (enum_read t old s)).
Proof.
  intros t old s Ht Hf.
  assert (Hin : In t enum_tables) by (cbv [silent enum_tables In] in *; tauto).
  assert (Q : forallb (fun t => negb (et_reports t) && match et_read_other t with Some _ => true | None => false end) silent = true)
    by reflexivity.
  rewrite forallb_forall in Q. specialize (Q t Ht). apply andb_true_iff in Q. destruct Q as [Q1 Q2].
  unfold enum_read. rewrite (foreign_no_match t s (all_reads t Hin) Hf). cbn [fst snd].
  split; [apply negb_true_iff; exact Q1|]. destruct (et_read_other t); [reflexivity|discriminate].
Qed.
Print Assumptions C65_silent_tables.
