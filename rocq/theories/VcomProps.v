(** Properties C115 to C118: the interface objects through which the library is used (VcomModel.v). *)
From Coq Require Import List String NArith Bool Arith Lia.
From Verif Require Import VcomDefs VcomTable VcomModel VcomProofs.
Import ListNotations.
Local Open Scope string_scope.
Local Open Scope list_scope.

(** A world for the examples: every list has three elements, every link is set to 7, new objects are 8. *)
Definition sample_world : world := World (fun _ _ => [4; 5; 6]) (fun _ _ => Some 7) (fun _ _ => 8).
(** The same with every link empty. *)
Definition bare_world : world := World (fun _ _ => []) (fun _ _ => None) (fun _ _ => 8).

Definition find_getter (n : string) : option getter := find (fun g => String.eqb (g_name g) n) getters.
Lemma find_getter_in n g : find_getter n = Some g -> In g getters /\ g_name g = n.
Proof. intros H. apply find_some in H as [H1 H2]. split; [exact H1|]. apply String.eqb_eq in H2. exact H2. Qed.

(** ** C115: elements by index *)

(** The functions whose check lets the index equal to the size pass. *)
Definition wrong_check : list string :=
  ["CGdtfAttributeImpl::GetSubPhysicalUnitAt"; "CGdtfGeometryImpl::GetBreakAt";
   "CGdtfGeometryImpl::GetLaserProtocolAt"; "CGdtfGeometryImpl::GetPinPatchAt"].

Definition check_ok (g : getter) : bool :=
  match g_kind g with
  | KAt AtGeSize _ e => negb (existsb (String.eqb (g_name g)) wrong_check) && negb (N.eqb e 0)
      && negb (g_clear g) && match g_order g with NewFirst => true | _ => false end
  | KAt SizeLtAt Brackets e => existsb (String.eqb (g_name g)) wrong_check && negb (N.eqb e 0)
      && negb (g_clear g) && match g_order g with NewFirst => true | _ => false end
  | KAt _ _ _ => false
  | _ => true
  end.
Lemma all_check_ok : forallb check_ok getters = true.
Proof. vm_compute; reflexivity. Qed.

Lemma at_facts g gd r e : In g getters -> g_kind g = KAt gd r e ->
  e <> 0%N /\ g_clear g = false /\ g_order g = NewFirst /\
  ((gd = AtGeSize /\ ~ In (g_name g) wrong_check) \/ (gd = SizeLtAt /\ r = Brackets /\ In (g_name g) wrong_check)).
Proof.
  intros H K. pose proof all_check_ok as E. rewrite forallb_forall in E. apply E in H. unfold check_ok in H. rewrite K in H.
  assert (Ex : existsb (String.eqb (g_name g)) wrong_check = true <-> In (g_name g) wrong_check).
  { rewrite existsb_exists. split.
    - intros (x & Hx & He). apply String.eqb_eq in He. rewrite He. exact Hx.
    - intros Hi. exists (g_name g). split; [exact Hi|apply String.eqb_refl]. }
  destruct gd; [|destruct r; [|discriminate]|discriminate];
    apply andb_prop in H as [H Ho]; apply andb_prop in H as [H Hc]; apply andb_prop in H as [Hw He];
    apply negb_true_iff in Hc; apply negb_true_iff, N.eqb_neq in He; destruct (g_order g); try discriminate;
    (split; [exact He|]); (split; [exact Hc|]); (split; [reflexivity|]).
  - left. split; [reflexivity|]. intros Hi. apply Ex in Hi. rewrite Hi in Hw. discriminate.
  - right. split; [reflexivity|]. split; [reflexivity|]. apply Ex. exact Hw.
Qed.

Lemma call_new W h this g at_ out h1 o x : In g getters -> nth_error h this = Some (Some o) -> o_class o = g_class g ->
  g_order g = NewFirst -> g_clear g = false -> lookup W g (o_ptr o) at_ = VOk x -> release_opt h out = VOk h1 ->
  call W h this g at_ out =
    match x with
    | inl p => VOk (h1 ++ [Some (Obj (g_cast g) 1 p)], Some (List.length h), kNoError)
    | inr e => VOk (h, out, e)
    end.
Proof.
  intros Hg Et Ec Og Cl El R. unfold call. rewrite (deref_live _ _ _ Et). cbn [vbind]. rewrite Ec, String.eqb_refl.
  cbn [negb]. rewrite El. cbn [vbind]. rewrite Og, Cl. destruct x as [p|e]; [|reflexivity].
  rewrite make_ok by exact Hg. cbn [vbind]. rewrite (release_app _ _ _ _ R). reflexivity.
Qed.

Lemma lookup_at W g d at_ gd r e : g_kind g = KAt gd r e -> (gd = AtGeSize \/ at_ <> List.length (w_list W (g_name g) d)) ->
  lookup W g (To d) at_ = VOk (match nth_error (w_list W (g_name g) d) at_ with Some p => inl (To p) | None => inr e end).
Proof.
  intros K H. unfold lookup. rewrite K. rewrite read_at_ok by exact H.
  destruct (Nat.ltb_spec at_ (List.length (w_list W (g_name g) d))) as [L|L].
  - destruct (nth_error _ at_) eqn:E; [destruct (g_own g); reflexivity|]. apply nth_error_None in E; lia.
  - rewrite (proj2 (nth_error_None _ at_)) by exact L. destruct (g_own g); reflexivity.
Qed.

(** For every function that gives an element by index but four: an index below the size gives a new object for that
    element, with one reference, after the object held before was released; any other index gives an error and
    changes nothing. *)
Theorem C115_index_access : forall W h this g at_ out h1 o d gd r e,
  In g getters -> g_kind g = KAt gd r e -> ~ In (g_name g) wrong_check ->
  nth_error h this = Some (Some o) -> o_class o = g_class g -> o_ptr o = To d -> release_opt h out = VOk h1 ->
  match nth_error (w_list W (g_name g) d) at_ with
  | Some p => call W h this g at_ out = VOk (h1 ++ [Some (Obj (g_cast g) 1 (To p))], Some (List.length h), kNoError)
  | None => call W h this g at_ out = VOk (h, out, e) /\ e <> kNoError
  end.
Proof.
  intros W h this g at_ out h1 o d gd r e Hg K Hw Et Ec Ep R.
  destruct (at_facts g gd r e Hg K) as (He & Cl & Og & [[-> _]|(_ & _ & Hi)]); [|contradiction].
  pose proof (lookup_at W g d at_ _ r e K (or_introl eq_refl)) as El. rewrite <- Ep in El.
  rewrite (call_new W h this g at_ out h1 o _ Hg Et Ec Og Cl El R).
  destruct (nth_error _ at_); [reflexivity|]. split; [reflexivity|exact He].
Qed.

Definition gp_at : getter := match find_getter "CGdtfDmxModeImpl::GetDmxChannelAt" with Some g => g | None => G "" "" "" "" "" NewFirst Embedded false KNew end.
Definition mode_heap : heap := [Some (Obj "CGdtfDmxModeImpl" 1 (To 3))].
Example C115_index_access_case : In gp_at getters /\ g_kind gp_at = KAt AtGeSize Brackets 460 /\
  call sample_world mode_heap 0 gp_at 2 None = VOk (mode_heap ++ [Some (Obj "CGdtfDmxChannelImpl" 1 (To 6))], Some 1, 0%N) /\
  call sample_world mode_heap 0 gp_at 3 None = VOk (mode_heap, None, 460%N).
Proof.
  split; [apply (find_getter_in "CGdtfDmxModeImpl::GetDmxChannelAt"); vm_compute; reflexivity|].
  split; [vm_compute; reflexivity|]. split; vm_compute; reflexivity.
Qed.

(** The four others do the same for every index but the size itself, where they read behind the end of the list. *)
Theorem C115_wrong_check_at_size : forall W h this g out o d,
  In g getters -> In (g_name g) wrong_check ->
  nth_error h this = Some (Some o) -> o_class o = g_class g -> o_ptr o = To d ->
  call W h this g (List.length (w_list W (g_name g) d)) out = VUB.
Proof.
  intros W h this g out o d Hg Hw Et Ec Ep.
  assert (exists gd r e, g_kind g = KAt gd r e) as (gd & r & e & K).
  { assert (A : forallb (fun g => negb (existsb (String.eqb (g_name g)) wrong_check) ||
                             match g_kind g with KAt _ _ _ => true | _ => false end) getters = true) by (vm_compute; reflexivity).
    rewrite forallb_forall in A. apply A in Hg. apply orb_prop in Hg as [Hg|Hg].
    - apply negb_true_iff in Hg. assert (existsb (String.eqb (g_name g)) wrong_check = true); [|congruence].
      apply existsb_exists. exists (g_name g); split; [exact Hw|apply String.eqb_refl].
    - destruct (g_kind g) as [gd r e| |]; try discriminate. exists gd, r, e; reflexivity. }
  destruct (at_facts g gd r e Hg K) as (_ & _ & _ & [[_ Hn]|(-> & -> & _)]); [contradiction|].
  unfold call. rewrite (deref_live _ _ _ Et). cbn [vbind]. rewrite Ec, String.eqb_refl. cbn [negb].
  assert (El : lookup W g (o_ptr o) (List.length (w_list W (g_name g) d)) = VUB); [|rewrite El; reflexivity].
  rewrite Ep. unfold lookup. rewrite K. unfold read_at, refuses. rewrite Nat.ltb_irrefl.
  rewrite (proj2 (nth_error_None _ _)) by lia. destruct (g_own g); reflexivity.
Qed.

Theorem C115_wrong_check_refuted : exists W h this g at_ out o d,
  In g getters /\ g_kind g = KAt SizeLtAt Brackets 460 /\
  nth_error h this = Some (Some o) /\ o_class o = g_class g /\ o_ptr o = To d /\
  nth_error (w_list W (g_name g) d) at_ = None /\ call W h this g at_ out = VUB.
Proof.
  exists sample_world, [Some (Obj "CGdtfGeometryImpl" 1 (To 3))], 0.
  destruct (find_getter "CGdtfGeometryImpl::GetPinPatchAt") as [g|] eqn:Eg; [|vm_compute in Eg; discriminate].
  exists g, 3, None, (Obj "CGdtfGeometryImpl" 1 (To 3)), 3.
  destruct (find_getter_in _ _ Eg) as [Hg Hn].
  assert (A : match find_getter "CGdtfGeometryImpl::GetPinPatchAt" with
              | Some g => g_kind g = KAt SizeLtAt Brackets 460 /\ g_class g = "CGdtfGeometryImpl" | None => False end)
    by (vm_compute; split; reflexivity).
  rewrite Eg in A. destruct A as [A1 A2].
  split; [exact Hg|]. split; [exact A1|]. split; [reflexivity|]. split; [symmetry; exact A2|]. split; [reflexivity|].
  split; [reflexivity|].
  apply (C115_wrong_check_at_size sample_world [Some (Obj "CGdtfGeometryImpl" 1 (To 3))] 0 g None (Obj "CGdtfGeometryImpl" 1 (To 3)) 3 Hg);
    [|reflexivity| |reflexivity].
  - rewrite Hn. cbn. auto.
  - symmetry; exact A2.
Qed.

Theorem C115_wrong_check_partial : forall W h this g at_ out h1 o d gd r e,
  In g getters -> g_kind g = KAt gd r e -> at_ <> List.length (w_list W (g_name g) d) ->
  nth_error h this = Some (Some o) -> o_class o = g_class g -> o_ptr o = To d -> release_opt h out = VOk h1 ->
  match nth_error (w_list W (g_name g) d) at_ with
  | Some p => call W h this g at_ out = VOk (h1 ++ [Some (Obj (g_cast g) 1 (To p))], Some (List.length h), kNoError)
  | None => call W h this g at_ out = VOk (h, out, e) /\ e <> kNoError
  end.
Proof.
  intros W h this g at_ out h1 o d gd r e Hg K Hw Et Ec Ep R.
  destruct (at_facts g gd r e Hg K) as (He & Cl & Og & _).
  pose proof (lookup_at W g d at_ _ r e K (or_intror Hw)) as El. rewrite <- Ep in El.
  rewrite (call_new W h this g at_ out h1 o _ Hg Et Ec Og Cl El R).
  destruct (nth_error _ at_); [reflexivity|]. split; [reflexivity|exact He].
Qed.

(** The loop of a caller: [for (i = at_; i < at_ + n; i++)], one variable for the elements; collects what the objects
    stand for. *)
Fixpoint visit (W : world) (h : heap) (this : nat) (g : getter) (out : option nat) (at_ n : nat) :
  vres (heap * option nat * list ptr) :=
  match n with
  | 0 => VOk (h, out, [])
  | Datatypes.S n' =>
    do! (h1, out1, e) <- call W h this g at_ out;
    match out1 with
    | None => VNull
    | Some i =>
      do! o <- deref h1 i;
      do! (h2, out2, ps) <- visit W h1 this g out1 (Datatypes.S at_) n';
      VOk (h2, out2, o_ptr o :: ps)
    end
  end.

Lemma release_other h i this h1 : release h i = VOk h1 -> i <> this ->
  nth_error h1 this = nth_error h this /\ List.length h1 = List.length h.
Proof.
  unfold release. intros H Hn. destruct (deref h i) as [o| | | |]; cbn [vbind] in H; try discriminate.
  destruct (N.ltb 0 (o_refs o)); [|destruct (String.eqb (o_class o) "CRawOSFileImpl")]; injection H as <-.
  - rewrite nth_upd_other, upd_length by exact Hn. auto.
  - auto.
  - rewrite nth_upd_other, upd_length by exact Hn. auto.
Qed.

Lemma release_live h i o : nth_error h i = Some (Some o) -> exists h1, release h i = VOk h1.
Proof.
  intros E. unfold release. rewrite (deref_live _ _ _ E). cbn [vbind].
  destruct (N.ltb 0 (o_refs o)); [|destruct (String.eqb (o_class o) "CRawOSFileImpl")]; eexists; reflexivity.
Qed.

Lemma visit_ok W this g gd r e o d : In g getters -> g_kind g = KAt gd r e ->
  o_class o = g_class g -> o_ptr o = To d ->
  forall n at_ h out, nth_error h this = Some (Some o) ->
  (forall i, out = Some i -> i <> this /\ exists o', nth_error h i = Some (Some o')) ->
  List.length (w_list W (g_name g) d) = at_ + n ->
  exists h' out', visit W h this g out at_ n = VOk (h', out', map To (skipn at_ (w_list W (g_name g) d))) /\
    nth_error h' this = Some (Some o).
Proof.
  intros Hg K Ec Ep. induction n as [|n IH]; intros at_ h out Et Ho L.
  - exists h, out. cbn [visit]. rewrite skipn_all2 by lia. auto.
  - assert (exists h1, release_opt h out = VOk h1 /\ nth_error h1 this = nth_error h this /\ List.length h1 = List.length h) as (h1 & R & R1 & R2).
    { destruct out as [i|]; [|exists h; auto]. destruct (Ho i eq_refl) as (Hn & o' & E').
      destruct (release_live _ _ _ E') as [h1 R]. exists h1. split; [exact R|]. eapply release_other; eauto. }
    assert (Hne : at_ <> List.length (w_list W (g_name g) d)) by lia.
    pose proof (C115_wrong_check_partial W h this g at_ out h1 o d gd r e Hg K Hne Et Ec Ep R) as H.
    destruct (nth_error (w_list W (g_name g) d) at_) as [p|] eqn:En; [|apply nth_error_None in En; lia].
    cbn [visit]. rewrite H. cbn [vbind]. rewrite <- R2. rewrite (deref_live _ _ _ (nth_last h1 _)). cbn [vbind o_ptr].
    assert (Lt : this < List.length h1) by (rewrite R2; eapply nth_lt; eauto).
    destruct (IH (Datatypes.S at_) (h1 ++ [Some (Obj (g_cast g) 1 (To p))]) (Some (List.length h1))) as (h' & out' & V & Vt).
    + rewrite nth_error_app1 by exact Lt. congruence.
    + intros i Hi. injection Hi as <-. split; [lia|]. eexists; apply nth_last.
    + lia.
    + rewrite V. cbn [vbind]. exists h', out'. split; [|exact Vt].
      assert (Sk : skipn at_ (w_list W (g_name g) d) = p :: skipn (Datatypes.S at_) (w_list W (g_name g) d)).
      { clear -En. revert En. generalize (w_list W (g_name g) d) as l. induction at_ as [|k IHk]; intros [|y l] E; cbn in E; try discriminate.
        - injection E as ->. reflexivity.
        - cbn [skipn]. apply IHk. exact E. }
      rewrite Sk. reflexivity.
Qed.

(** A loop over all indices below the number of elements gives exactly the elements, in their order. *)
Theorem C115_loop : forall W h this g gd r e o d,
  In g getters -> g_kind g = KAt gd r e ->
  nth_error h this = Some (Some o) -> o_class o = g_class g -> o_ptr o = To d ->
  exists h' out', visit W h this g None 0 (List.length (w_list W (g_name g) d)) =
    VOk (h', out', map To (w_list W (g_name g) d)).
Proof.
  intros W h this g gd r e o d Hg K Et Ec Ep.
  destruct (visit_ok W this g gd r e o d Hg K Ec Ep (List.length (w_list W (g_name g) d)) 0 h None) as (h' & out' & V & _);
    [exact Et|discriminate|lia|]. exists h', out'. exact V.
Qed.
Example C115_loop_case : visit sample_world mode_heap 0 gp_at None 0 3 =
  VOk (mode_heap ++ [None; None; Some (Obj "CGdtfDmxChannelImpl" 1 (To 6))], Some 3, [To 4; To 5; To 6]).
Proof. vm_compute; reflexivity. Qed.

(** The values by index: the break of a mode and the texts of a provider are right. *)
Theorem C115_mode_break : forall A (l : list A) at_,
  mode_break_at l at_ = VOk (match nth_error l at_ with Some x => inl x | None => inr 460%N end).
Proof.
  intros A l at_. unfold mode_break_at. rewrite read_at_ok by (left; reflexivity).
  destruct (Nat.ltb_spec at_ (List.length l)) as [L|L].
  - destruct (nth_error l at_) eqn:E; [reflexivity|]. apply nth_error_None in E; lia.
  - rewrite (proj2 (nth_error_None l at_)) by exact L. reflexivity.
Qed.

Theorem C115_provider : forall l at_, provider_at l at_ = VOk (nth at_ l "").
Proof.
  intros l at_. unfold provider_at. destruct (Nat.ltb_spec at_ (List.length l)) as [L|L].
  - rewrite (nth_error_nth' l "" L). reflexivity.
  - rewrite nth_overflow by exact L. reflexivity.
Qed.

(** Point of a gamut and address of a fixture: the index equal to the size reads behind the list or throws; and a
    protocol is never given to the caller although no error is reported. *)
Theorem C115_values_wrong :
  (forall A (l : list A), gamut_point_at l (List.length l) = VUB /\ address_at l (List.length l) = VThrow) /\
  (forall A (l : list A) at_ out x e, protocol_at l at_ out = VOk (x, e) -> x = out).
Proof.
  split.
  - intros A l. unfold gamut_point_at, address_at, read_at, refuses. rewrite Nat.ltb_irrefl.
    rewrite (proj2 (nth_error_None l _)) by lia. split; reflexivity.
  - intros A l at_ out x e H. unfold protocol_at in H. destruct (read_at AtGtSize Throws 1 l at_) as [[p|c]| | | |]; cbn [vbind] in H;
      try discriminate; pose proof (f_equal (fun r => match r with VOk (a, _) => a | _ => x end) H) as H1; cbn in H1; congruence.
Qed.

Theorem C115_values_refuted : exists (l : list nat) at_,
  nth_error l at_ = Some 5 /\ protocol_at l at_ None = VOk (None, kNoError) /\
  gamut_point_at l 1 = VUB /\ address_at l 1 = VThrow.
Proof. exists [5], 0. repeat split. Qed.

(** Every other index is answered rightly. *)
Theorem C115_values_partial : forall A (l : list A) at_, at_ <> List.length l ->
  gamut_point_at l at_ = VOk (match nth_error l at_ with Some x => inl x | None => inr 460%N end) /\
  address_at l at_ = VOk (match nth_error l at_ with Some x => inl x | None => inr 1%N end).
Proof.
  intros A l at_ H. unfold gamut_point_at, address_at. rewrite !read_at_ok by (right; exact H).
  destruct (Nat.ltb_spec at_ (List.length l)) as [L|L].
  - destruct (nth_error l at_) eqn:E; [split; reflexivity|]. apply nth_error_None in E; lia.
  - rewrite (proj2 (nth_error_None l at_)) by exact L. split; reflexivity.
Qed.
Example C115_values_case : gamut_point_at [7; 8] 1 = VOk (inl 8) /\ address_at [7; 8] 3 = VOk (inr 1%N).
Proof. split; reflexivity. Qed.

(** ** C116: identifiers and the objects made for them *)

(** Equality of identifiers is equality of the bytes, and [<] is a strict total order. *)
Theorem C116_identifier_order : forall a b c, wf_iid a -> wf_iid b -> wf_iid c ->
  (iid_eqb a b = true <-> a = b) /\ iid_ltb a a = false /\
  (iid_ltb a b = true -> iid_ltb b c = true -> iid_ltb a c = true) /\
  (iid_ltb a b = true \/ a = b \/ iid_ltb b a = true) /\
  (iid_ltb a b = true -> iid_ltb b a = false).
Proof.
  intros a b c Ha Hb Hc. split; [|split; [|split; [|split]]].
  - rewrite iid_eqb_spec. split; [apply members_inj; assumption|intros ->; reflexivity].
  - destruct (iid_ltb a a) eqn:E; [|reflexivity]. apply iid_ltb_lex in E; try assumption. exfalso; exact (lex_irrefl _ E).
  - rewrite !iid_ltb_lex by assumption. apply lex_trans.
  - apply iid_trichotomy; assumption.
  - intros E. destruct (iid_ltb b a) eqn:E1; [|reflexivity]. apply iid_ltb_lex in E, E1; try assumption.
    exfalso; exact (lex_irrefl _ (lex_trans _ _ _ E E1)).
Qed.
Example C116_identifier_order_case :
  let a := Iid 1 2 3 [0; 0; 0; 0; 0; 0; 0; 9]%N in let b := Iid 1 2 3 [0; 0; 0; 0; 0; 0; 1; 0]%N in
  wf_iid a /\ wf_iid b /\ iid_ltb a b = true.
Proof. repeat split. Qed.

(** No two interfaces have the same identifier. *)
Theorem C116_identifiers_distinct : NoDup (map snd iids) /\ NoDup (map fst iids).
Proof.
  split.
  - apply (nodupb_ok iid_eqb); [intros x y ->; apply iid_eqb_spec; reflexivity|exact iids_distinct].
  - apply (nodupb_ok String.eqb); [intros x y ->; apply String.eqb_refl|vm_compute; reflexivity].
Qed.

(** For every declared interface but [IID_StdFile]: the identifier makes a new object of the class that implements the
    interface, with one reference, and nothing else changes. *)
Theorem C116_query : forall n t, In (n, t) declared -> n <> "IID_StdFile" ->
  exists i c, iid_of n = Some i /\ assoc c implements = Some t /\
  forall h q, query_interface h i (Some q) = VOk (h ++ [Some (Obj c 1 (fresh_ptr c))], Some (Some (List.length h)), kNoError).
Proof.
  intros n t H Hn. pose proof all_decl_ok as E. rewrite forallb_forall in E. apply E in H. unfold decl_ok in H. cbn [fst snd] in H.
  apply orb_prop in H as [H|H]; [apply String.eqb_eq in H; contradiction|].
  destruct (iid_of n) as [i|]; [|discriminate]. destruct (class_of i) as [c|] eqn:Ec; [|discriminate].
  destruct (assoc c implements) as [t'|] eqn:Ei; [|discriminate]. apply String.eqb_eq in H. subst t'.
  exists i, c. split; [reflexivity|]. split; [exact Ei|]. intros h q. apply query_ok. exact Ec.
Qed.
Example C116_query_case : In ("IID_GdtfDmxMode", "IGdtfDmxMode") declared.
Proof. apply (assoc_in "IID_GdtfDmxMode" declared). vm_compute; reflexivity. Qed.

(** An identifier that is none of the declared ones makes nothing. *)
Theorem C116_unknown : forall i, (forall n j, In (n, j) iids -> n <> "IID_StdFile" -> i <> j) -> wf_iid i ->
  forall h q, query_interface h i (Some q) = VOk (h, Some q, kNoInstance).
Proof.
  intros i H Hw h q. unfold query_interface, class_of. rewrite class_in_none; [reflexivity|].
  intros n c j Hn Ej E. apply assoc_in in Ej. apply (H n j Ej).
  - intros ->. assert (A : existsb (String.eqb "IID_StdFile") (map fst factory) = true).
    { apply existsb_exists. exists "IID_StdFile". split; [|reflexivity]. apply in_map_iff. exists ("IID_StdFile", c). auto. }
    revert A. vm_compute. discriminate.
  - apply members_inj; [exact Hw|eapply in_wf; exact Ej|exact E].
Qed.
Example C116_unknown_case : wf_iid (Iid 0 0 0 [0; 0; 0; 0; 0; 0; 0; 0]%N) /\
  forallb (fun p => negb (iid_eqb (Iid 0 0 0 [0; 0; 0; 0; 0; 0; 0; 0]%N) (snd p))) iids = true.
Proof. split; [reflexivity|vm_compute; reflexivity]. Qed.

(** Every function that gives out an object asks for an identifier whose class is the one it casts to, and that class
    implements the interface of its parameter. *)
Theorem C116_casts : forall g, In g getters ->
  exists i, iid_of (g_iid g) = Some i /\ assoc (g_cast g) implements = Some (g_inter g) /\
  forall h, exists h1 n o, query_interface h i (Some None) = VOk (h1, Some (Some n), kNoError) /\
    nth_error h1 n = Some (Some o) /\ o_class o = g_cast g.
Proof.
  intros g H. destruct (getter_class g H) as (i & E1 & E2 & E3). exists i. split; [exact E1|]. split; [exact E3|].
  intros h. do 3 eexists. split; [apply query_ok; exact E2|]. split; [apply nth_last|reflexivity].
Qed.
Example C116_casts_case : In gp_at getters.
Proof. apply C115_index_access_case. Qed.

(** What fails: [IID_StdFile] makes nothing; a null parameter leaves an object that nobody can release; a [VCOMPtr] of
    the wrong type accepts the object, and a call through it is undefined. *)
Theorem C116_refuted :
  (exists i, In ("IID_StdFile", i) iids /\ forall h q, query_interface h i (Some q) = VOk (h, Some q, kNoInstance)) /\
  (forall n t, In (n, t) declared -> n <> "IID_StdFile" -> exists i c, iid_of n = Some i /\
     forall h, query_interface h i None = VOk (h ++ [Some (Obj c 0 (fresh_ptr c))], None, kNotInitialized)) /\
  (exists i s, iid_of "IID_GdtfDmxMode" = Some i /\
     run sample_world [CNewIid "IGdtfFixture" i] (State [] []) = VOk s /\
     st_vars s = [Var "IGdtfFixture" (Some 0)] /\
     exists g, In g getters /\ g_class g = "CGdtfFixtureImpl" /\ call sample_world (st_heap s) 0 g 0 None = VUB).
Proof.
  split; [|split].
  - destruct (iid_of "IID_StdFile") as [i|] eqn:E; [|vm_compute in E; discriminate].
    exists i. split; [apply assoc_in; exact E|]. intros h q. unfold query_interface.
    assert (C : class_of i = None); [|rewrite C; reflexivity].
    assert (A : match iid_of "IID_StdFile" with Some j => class_of j | None => None end = None) by (vm_compute; reflexivity).
    rewrite E in A. exact A.
  - intros n t H Hn. pose proof all_decl_ok as E. rewrite forallb_forall in E. apply E in H. unfold decl_ok in H. cbn [fst snd] in H.
    apply orb_prop in H as [H|H]; [apply String.eqb_eq in H; contradiction|].
    destruct (iid_of n) as [i|]; [|discriminate]. destruct (class_of i) as [c|] eqn:Ec; [|discriminate].
    exists i, c. split; [reflexivity|]. intros h. unfold query_interface. rewrite Ec. reflexivity.
  - destruct (iid_of "IID_GdtfDmxMode") as [i|] eqn:E; [|vm_compute in E; discriminate].
    exists i. assert (C : class_of i = Some "CGdtfDmxModeImpl").
    { assert (A : match iid_of "IID_GdtfDmxMode" with Some j => class_of j | None => None end = Some "CGdtfDmxModeImpl") by (vm_compute; reflexivity).
      rewrite E in A. exact A. }
    exists (State [Some (Obj "CGdtfDmxModeImpl" 1 Null)] [Var "IGdtfFixture" (Some 0)]).
    split; [reflexivity|]. split; [|split; [reflexivity|]].
    + cbn [run step]. unfold query_ptr. rewrite (query_ok _ _ _ None C). reflexivity.
    + destruct (find_getter "CGdtfFixtureImpl::GetDmxModeAt") as [g|] eqn:Eg; [|vm_compute in Eg; discriminate].
      exists g. split; [apply (find_getter_in _ _ Eg)|].
      assert (A : match find_getter "CGdtfFixtureImpl::GetDmxModeAt" with Some g => g_class g | None => "" end = "CGdtfFixtureImpl") by (vm_compute; reflexivity).
      rewrite Eg in A. split; [exact A|]. unfold call. cbn [st_heap deref nth_error vbind o_class]. rewrite A. reflexivity.
Qed.

(** ** C117: reference counts *)

(** Any program of [VCOMPtr] operations and calls, of fewer than 2^32 commands, each command careful in the state where
    it runs: nothing is undefined and nothing throws; afterwards the count of every object is the number of variables
    that hold it, which is not zero, and every variable that is not empty holds an object that is there and whose
    class implements its interface. *)
Theorem C117_reference_counts : forall W p, (N.of_nat (List.length p) < 2 ^ 32)%N -> careful_run W p (State [] []) ->
  match run W p (State [] []) with
  | VOk s =>
    (forall i o, nth_error (st_heap s) i = Some (Some o) ->
       o_refs o = N.of_nat (List.length (filter (fun x => match v_ptr x with Some j => Nat.eqb i j | None => false end) (st_vars s))) /\
       exists x, In x (st_vars s) /\ v_ptr x = Some i) /\
    (forall x i, In x (st_vars s) -> v_ptr x = Some i ->
       exists o, nth_error (st_heap s) i = Some (Some o) /\ assoc (o_class o) implements = Some (v_type x))
  | VUB => False
  | VThrow => False
  | VNull => True
  | VBad => True
  end.
Proof.
  intros W p B Ca. pose proof (run_ok W p (State [] []) inv_start B Ca) as H.
  destruct (run W p (State [] [])) as [s| | | |]; try exact H.
  destruct H as [C Ty]. split.
  - intros i o E. pose proof (C i) as Ci. rewrite E in Ci. destruct Ci as [C1 C2]. split; [exact C1|].
    unfold holders in C2. destruct (filter (holds i) (st_vars s)) as [|x l] eqn:F; [cbn in C2; lia|].
    assert (Hx : In x (filter (holds i) (st_vars s))) by (rewrite F; left; reflexivity).
    apply filter_In in Hx as [Hx Hh]. exists x; split; [exact Hx|]. unfold holds in Hh.
    destruct (v_ptr x) as [j|]; [|discriminate]. apply Nat.eqb_eq in Hh. congruence.
  - intros x i Hx Ep. destruct (counts_live _ _ _ C (holders_in _ _ _ Hx Ep)) as [o E].
    exists o; split; [exact E|]. eapply Ty; eauto.
Qed.

(** When the last variable is gone every object was deleted. *)
Theorem C117_nothing_left : forall W p s, (N.of_nat (List.length p) < 2 ^ 32)%N -> careful_run W p (State [] []) ->
  run W p (State [] []) = VOk s -> st_vars s = [] -> forall i o, nth_error (st_heap s) i <> Some (Some o).
Proof.
  intros W p s B Ca R Hv i o E. pose proof (C117_reference_counts W p B Ca) as H. rewrite R in H.
  destruct H as [H _]. destruct (H i o E) as (_ & x & Hx & _). rewrite Hv in Hx. exact Hx.
Qed.

(** A program that makes a mode, has it set up by a fixture, walks its channels, copies and lets go. *)
Definition mode_iid : iid := match iid_of "IID_GdtfDmxMode" with Some i => i | None => Iid 0 0 0 [] end.
Definition scene_iid : iid := match iid_of "IID_MediaRessourceVectorInterface" with Some i => i | None => Iid 0 0 0 [] end.
Definition g_of (n : string) : getter := match find_getter n with Some g => g | None => gp_at end.
Definition layer_g : getter := g_of "CMediaRessourceVectorImpl::CreateLayerObject".
Definition next_g : getter := g_of "CMediaRessourceVectorImpl::GetNextObject".
Definition sample_program : list cmd :=
  [CNewIid "IMediaRessourceVectorInterface" scene_iid; CNew "ISceneObj"; CGet 0 layer_g 0 1; CNewCopy 1; CGet 1 next_g 0 1;
   CAssign 2 1; CNull 1; CEnd; CEnd; CEnd].

(** [careful] as a check, for the example. *)
Definition careful_b (W : world) (c : cmd) (s : state) : bool :=
  match c with
  | CNewIid t i => match class_of i with Some c => match assoc c implements with Some t' => String.eqb t t' | None => false end | None => true end
  | CQuery v i => false
  | CGet v g at_ w =>
    existsb (fun g' => String.eqb (g_name g') (g_name g)) getters &&
    match g_order g, g_kind g with
    | NewFirst, KNew => match g_own g with Embedded => true | _ => false end
    | ReadFirst, KOne _ =>
      match nth_error (st_vars s) v with
      | Some x => match v_ptr x with
                  | Some t => match nth_error (st_heap s) t with Some (Some o) => match o_ptr o with To _ => true | _ => false end | _ => true end
                  | None => true
                  end
      | None => true
      end
    | _, _ => false
    end
  | _ => true
  end.

Fixpoint careful_all (W : world) (p : list cmd) (s : state) : bool :=
  match p with
  | [] => true
  | c :: p' => careful_b W c s && match step W c s with VOk s1 => careful_all W p' s1 | _ => true end
  end.

Lemma careful_b_ok W c s : careful_b W c s = true -> (forall v g at_ w, c = CGet v g at_ w -> In g getters) -> careful W c s.
Proof.
  destruct c as [t|t i|v|v w|v|v i|v|v g at_ w|]; cbn [careful_b careful]; intros H Hg; try exact I; try discriminate.
  - intros c Hc. rewrite Hc in H. destruct (assoc c implements); [|discriminate]. apply String.eqb_eq in H. congruence.
  - intros x y this o Ev Ew Ep Eo. apply andb_prop in H as [_ H]. rewrite Ev, Ep, Eo in H.
    specialize (Hg _ _ _ _ eq_refl). unfold careful_get, own_ok.
    destruct (g_order g) eqn:Og; try discriminate; destruct (g_kind g) as [gd r e|k|] eqn:Ok; try discriminate.
    + destruct (g_own g) eqn:Ow; try discriminate. split; [exact Hg|]. split; [exact I|]. split; [discriminate|]. split; discriminate.
    + destruct (o_ptr o) eqn:Op; try discriminate. split; [exact Hg|]. split; [destruct (g_own g); exact I|].
      split; [discriminate|]. split; discriminate.
Qed.

Lemma careful_all_ok W p s : careful_all W p s = true -> (forall v g at_ w, In (CGet v g at_ w) p -> In g getters) -> careful_run W p s.
Proof.
  revert s; induction p as [|c p IH]; intros s H Hg p1 c1 p2 s1 E R.
  - destruct p1; discriminate.
  - cbn [careful_all] in H. apply andb_prop in H as [H1 H2]. destruct p1 as [|c2 p1]; cbn [app] in E.
    + injection E as -> ->. cbn [run] in R. injection R as <-. apply careful_b_ok; [exact H1|].
      intros v g at_ w ->. eapply Hg. left; reflexivity.
    + injection E as -> ->. cbn [run] in R. destruct (step W c2 s) as [s2| | | |] eqn:Es; cbn [vbind] in R; try discriminate.
      eapply (IH s2 H2); [intros v g at_ w Hi; eapply Hg; right; exact Hi|reflexivity|exact R].
Qed.

Lemma layer_in : In layer_g getters.
Proof. apply (find_getter_in "CMediaRessourceVectorImpl::CreateLayerObject"). vm_compute; reflexivity. Qed.
Lemma next_in : In next_g getters.
Proof. apply (find_getter_in "CMediaRessourceVectorImpl::GetNextObject"). vm_compute; reflexivity. Qed.

Example C117_reference_counts_case : careful_run sample_world sample_program (State [] []) /\
  run sample_world sample_program (State [] []) = VOk (State [None; None; None] []) /\
  run sample_world (firstn 4 sample_program) (State [] []) =
    VOk (State [Some (Obj "CMediaRessourceVectorImpl" 1 Null); Some (Obj "CSceneObjImpl" 2 (To 8))]
               [Var "IMediaRessourceVectorInterface" (Some 0); Var "ISceneObj" (Some 1); Var "ISceneObj" (Some 1)]).
Proof.
  split; [apply careful_all_ok; [vm_compute; reflexivity|]|split; vm_compute; reflexivity].
  intros v g at_ w H. cbn [sample_program In] in H.
  repeat (destruct H as [H|H]; [try discriminate H; injection H as _ <- _ _; first [exact layer_in|exact next_in]|]). contradiction.
Qed.

(** The functions for which a caller has to see to the result variable: no others release it first or not at all. *)
Definition order_ok (g : getter) : bool :=
  match g_order g with
  | NoRelease => String.eqb (g_name g) "CXMLFileImpl::GetRootNode"
  | ReleaseFirst => existsb (String.eqb (g_name g))
      ["CMediaRessourceVectorImpl::GetFirstLayer"; "CFileIdentifier::GetFolder"; "CFolderIdentifier::GetParentFolder"]
  | _ => true
  end.
Theorem C117_exceptions : forall g, In g getters ->
  (g_order g = NoRelease -> g_name g = "CXMLFileImpl::GetRootNode") /\
  (g_order g = ReleaseFirst -> g_class g = g_cast g -> g_name g = "CFolderIdentifier::GetParentFolder").
Proof.
  intros g H.
  assert (A : forallb (fun g => order_ok g &&
      match g_order g with
      | ReleaseFirst => negb (String.eqb (g_class g) (g_cast g)) || String.eqb (g_name g) "CFolderIdentifier::GetParentFolder"
      | _ => true end) getters = true) by (vm_compute; reflexivity).
  rewrite forallb_forall in A. apply A in H. clear A. apply andb_prop in H as [H1 H2]. unfold order_ok in H1. split.
  - intros E. rewrite E in H1. apply String.eqb_eq in H1. exact H1.
  - intros E Ec. rewrite E in H2. rewrite Ec, String.eqb_refl in H2. cbn [negb orb] in H2. apply String.eqb_eq in H2. exact H2.
Qed.

(** What a caller has to avoid.  A folder asked for its parent with itself as result is used after it was deleted; the
    root node written into a variable that holds a node leaves that node undeleted for ever. *)
Definition folder_iid : iid := match iid_of "IID_FolderIdentifier" with Some i => i | None => Iid 0 0 0 [] end.
Definition folder_state : state := State [Some (Obj "CFolderIdentifier" 1 (To 3))] [Var "IFolderIdentifier" (Some 0)].
Definition xml_state : state := State [Some (Obj "CXMLFileImpl" 1 (To 3))] [Var "IXMLFile" (Some 0)].
Theorem C117_refuted :
  (exists g, In g getters /\ g_name g = "CFolderIdentifier::GetParentFolder" /\
     inv folder_state /\ step sample_world (CGet 0 g 0 0) folder_state = VUB) /\
  (exists g o, In g getters /\ g_name g = "CXMLFileImpl::GetRootNode" /\ inv xml_state /\
     run sample_world [CNew "IXMLFileNode"; CGet 0 g 0 1; CGet 0 g 0 1; CEnd; CEnd] xml_state =
       VOk (State [None; Some o; None] [])).
Proof.
  split.
  - exists (g_of "CFolderIdentifier::GetParentFolder").
    destruct (find_getter_in "CFolderIdentifier::GetParentFolder" (g_of "CFolderIdentifier::GetParentFolder")) as [H1 H2];
      [vm_compute; reflexivity|].
    split; [exact H1|]. split; [exact H2|]. split; [|vm_compute; reflexivity]. split.
    + intros [|[|i]]; cbn; split; try reflexivity; lia.
    + intros x i o [<-|[]] Ep E. cbn in Ep. injection Ep as <-. cbn in E. injection E as <-. vm_compute; reflexivity.
  - exists (g_of "CXMLFileImpl::GetRootNode"), (Obj "CXMLFileNodeImpl" 1 (To 8)).
    destruct (find_getter_in "CXMLFileImpl::GetRootNode" (g_of "CXMLFileImpl::GetRootNode")) as [H1 H2];
      [vm_compute; reflexivity|].
    split; [exact H1|]. split; [exact H2|]. split; [|vm_compute; reflexivity]. split.
    + intros [|[|i]]; cbn; split; try reflexivity; lia.
    + intros x i o [<-|[]] Ep E. cbn in Ep. injection Ep as <-. cbn in E. injection E as <-. vm_compute; reflexivity.
Qed.

(** ** C118: linked objects, and objects that were not set up *)

(** The functions that empty the parameter when there is no object. *)
Definition empties (g : getter) : bool :=
  match g_order g with ReadFirst => true | NewFirst => g_clear g | _ => false end.

Lemma call_cases W h this g at_ out h1 o x : In g getters -> nth_error h this = Some (Some o) -> o_class o = g_class g ->
  lookup W g (o_ptr o) at_ = VOk x -> release_opt h out = VOk h1 -> out <> Some this -> g_order g <> NoRelease ->
  call W h this g at_ out =
    match x with
    | inl p => VOk (h1 ++ [Some (Obj (g_cast g) 1 p)], Some (List.length h1), kNoError)
    | inr e => if empties g then VOk (h1, None, e) else VOk (h, out, e)
    end.
Proof.
  intros Hg Et Ec El R Hne Hnr. unfold call. rewrite (deref_live _ _ _ Et). cbn [vbind]. rewrite Ec, String.eqb_refl.
  cbn [negb]. rewrite El. cbn [vbind]. unfold empties.
  assert (E1 : nth_error h1 this = nth_error h this /\ List.length h1 = List.length h).
  { destruct out as [i|]; [|cbn [release_opt] in R; injection R as <-; auto]. cbn [release_opt] in R.
    eapply release_other; [exact R|congruence]. }
  destruct E1 as [E1 L1].
  destruct (g_order g); [| | |contradiction]; destruct x as [p|e].
  - rewrite make_ok by exact Hg. cbn [vbind]. rewrite (release_app _ _ _ _ R), L1. reflexivity.
  - destruct (g_clear g); [rewrite R|]; reflexivity.
  - rewrite R. cbn [vbind]. rewrite make_ok by exact Hg. reflexivity.
  - rewrite R. reflexivity.
  - rewrite R. cbn [vbind]. unfold deref. rewrite E1, Et. cbn [vbind]. rewrite El. cbn [vbind].
    rewrite make_ok by exact Hg. reflexivity.
  - reflexivity.
Qed.

Definition one_ok (g : getter) : bool :=
  match g_kind g with
  | KOne (Some e) => negb (N.eqb e 0) && match g_order g with NoRelease => false | _ => true end
  | KOne None => match g_order g with NewFirst => true | _ => false end
  | _ => true
  end && match g_own g with Checks e => negb (N.eqb e 0) | _ => true end.
Lemma all_one_ok : forallb one_ok getters = true.
Proof. vm_compute; reflexivity. Qed.

(** A function that gives out one linked object and checks the link: the object if there is one, otherwise an error,
    and the parameter is left as it is or emptied. *)
Theorem C118_linked : forall W h this g at_ out h1 o d e,
  In g getters -> g_kind g = KOne (Some e) ->
  nth_error h this = Some (Some o) -> o_class o = g_class g -> o_ptr o = To d ->
  release_opt h out = VOk h1 -> out <> Some this ->
  match w_one W (g_name g) d with
  | Some p => call W h this g at_ out = VOk (h1 ++ [Some (Obj (g_cast g) 1 (To p))], Some (List.length h1), kNoError)
  | None => call W h this g at_ out = (if empties g then VOk (h1, None, e) else VOk (h, out, e)) /\ e <> kNoError
  end.
Proof.
  intros W h this g at_ out h1 o d e Hg K Et Ec Ep R Hne.
  pose proof all_one_ok as A. rewrite forallb_forall in A. pose proof (A g Hg) as A1. unfold one_ok in A1. rewrite K in A1.
  apply andb_prop in A1 as [A1 _]. apply andb_prop in A1 as [A1 A2]. apply negb_true_iff, N.eqb_neq in A1.
  assert (El : lookup W g (o_ptr o) at_ = VOk (match w_one W (g_name g) d with Some p => inl (To p) | None => inr e end)).
  { rewrite Ep. unfold lookup. rewrite K. destruct (w_one W (g_name g) d), (g_own g); reflexivity. }
  assert (Hnr : g_order g <> NoRelease) by (intros Hq; rewrite Hq in A2; discriminate).
  pose proof (call_cases W h this g at_ out h1 o _ Hg Et Ec El R Hne Hnr) as Hc.
  destruct (w_one W (g_name g) d); [exact Hc|]. split; [exact Hc|exact A1].
Qed.
Definition attr_g : getter := g_of "CGdtfAttributeImpl::GetActivationGroup".
Definition attr_heap : heap := [Some (Obj "CGdtfAttributeImpl" 1 (To 3))].
Example C118_linked_case : In attr_g getters /\ g_kind attr_g = KOne (Some 461%N) /\
  call sample_world attr_heap 0 attr_g 0 None = VOk (attr_heap ++ [Some (Obj "CGdtfActivationGroupImpl" 1 (To 7))], Some 1, 0%N) /\
  call bare_world attr_heap 0 attr_g 0 None = VOk (attr_heap, None, 461%N).
Proof.
  split; [apply (find_getter_in "CGdtfAttributeImpl::GetActivationGroup"); vm_compute; reflexivity|].
  split; [vm_compute; reflexivity|]. split; vm_compute; reflexivity.
Qed.

(** Functions that make a new object give it out. *)
Theorem C118_created : forall W h this g at_ out h1 o d,
  In g getters -> g_kind g = KNew -> g_order g <> NoRelease ->
  nth_error h this = Some (Some o) -> o_class o = g_class g -> o_ptr o = To d ->
  release_opt h out = VOk h1 -> out <> Some this ->
  call W h this g at_ out = VOk (h1 ++ [Some (Obj (g_cast g) 1 (To (w_new W (g_name g) d)))], Some (List.length h1), kNoError).
Proof.
  intros W h this g at_ out h1 o d Hg K Hnr Et Ec Ep R Hne.
  assert (El : lookup W g (o_ptr o) at_ = VOk (inl (To (w_new W (g_name g) d)))).
  { rewrite Ep. unfold lookup. rewrite K. destruct (g_own g); reflexivity. }
  exact (call_cases W h this g at_ out h1 o _ Hg Et Ec El R Hne Hnr).
Qed.
Example C118_created_case :
  call sample_world mode_heap 0 (g_of "CGdtfDmxModeImpl::CreateDmxChannel") 0 None =
  VOk (mode_heap ++ [Some (Obj "CGdtfDmxChannelImpl" 1 (To 8))], Some 1, 0%N).
Proof. vm_compute; reflexivity. Qed.

(** An object that was never set up, of a class whose constructor writes its pointer: every function that checks the
    pointer answers with an error. *)
Theorem C118_not_set_up : forall W h this g at_ out h1 o e,
  In g getters -> g_own g = Checks e ->
  nth_error h this = Some (Some o) -> o_class o = g_class g -> o_ptr o = Null ->
  release_opt h out = VOk h1 -> out <> Some this -> 
  call W h this g at_ out = (if empties g then VOk (h1, None, e) else VOk (h, out, e)) /\ e <> kNoError.
Proof.
  intros W h this g at_ out h1 o e Hg Ow Et Ec Ep R Hne.
  pose proof all_one_ok as A. rewrite forallb_forall in A. pose proof (A g Hg) as A1. unfold one_ok in A1. rewrite Ow in A1.
  apply andb_prop in A1 as [_ A1]. apply negb_true_iff, N.eqb_neq in A1. split; [|exact A1].
  assert (El : lookup W g (o_ptr o) at_ = VOk (inr e)) by (rewrite Ep; unfold lookup; rewrite Ow; reflexivity).
  destruct (g_order g) eqn:Og.
  1-3: apply (call_cases W h this g at_ out h1 o _ Hg Et Ec El R Hne); rewrite Og; discriminate.
  unfold call. rewrite (deref_live _ _ _ Et). cbn [vbind]. rewrite Ec, String.eqb_refl. cbn [negb].
  rewrite El. cbn [vbind]. unfold empties. rewrite Og. reflexivity.
Qed.
Example C118_not_set_up_case :
  call sample_world [Some (Obj "CGdtfDmxModeImpl" 1 Null)] 0 gp_at 0 None = VOk ([Some (Obj "CGdtfDmxModeImpl" 1 Null)], None, 4%N).
Proof. vm_compute; reflexivity. Qed.

(** The functions that do not check the link, and those that do not check their own pointer. *)
Definition unchecked_link : list string :=
  ["CGdtfDmxChannelImpl::GetInitialFunction"; "CGdtfFixtureImpl::GetRDM"; "CGdtfFixtureImpl::GetArtNet";
   "CGdtfFixtureImpl::GetSACN"; "CGdtfMacroDMXValueImpl::GetDmxChannel"; "CGdtfMacroVisualValueImpl::GetDmxChannel";
   "CMappingDefinitionImpl::GetSource"; "CSceneObjImpl::GetPosition"; "CSceneObjImpl::GetVideoScreenSource";
   "CSceneObjImpl::GetProjectorSource"].
Definition unchecked_own : list string :=
  ["CGdtfDmxModeImpl::CreateDmxRelation"; "CGdtfDmxModeImpl::CreateDmxMacro";
   "CMediaRessourceVectorImpl::GetNextObject"; "CSceneObjImpl::CreateConnection"].

Lemma in_strings x l : existsb (String.eqb x) l = true <-> In x l.
Proof.
  rewrite existsb_exists. split.
  - intros (y & Hy & E). apply String.eqb_eq in E. subst. exact Hy.
  - intros H. exists x; split; [exact H|apply String.eqb_refl].
Qed.

Definition names_ok (g : getter) : bool :=
  Bool.eqb (existsb (String.eqb (g_name g)) unchecked_link) (match g_kind g with KOne None => true | _ => false end) &&
  Bool.eqb (existsb (String.eqb (g_name g)) unchecked_own) (match g_own g with Unchecked => true | _ => false end) &&
  match g_kind g with KOne None => negb (g_clear g) | _ => true end.
Lemma all_names_ok : forallb names_ok getters = true.
Proof. vm_compute; reflexivity. Qed.

Lemma names_facts g : In g getters ->
  (In (g_name g) unchecked_link <-> g_kind g = KOne None) /\ (In (g_name g) unchecked_own <-> g_own g = Unchecked) /\
  (g_kind g = KOne None -> g_order g = NewFirst).
Proof.
  intros H. pose proof all_names_ok as A. rewrite forallb_forall in A. pose proof (A g H) as A1. unfold names_ok in A1.
  pose proof all_one_ok as B. rewrite forallb_forall in B. pose proof (B g H) as B1. unfold one_ok in B1.
  apply andb_prop in A1 as [A1 _]. apply andb_prop in A1 as [A1 A2]. apply eqb_prop in A1, A2.
  rewrite <- !in_strings, A1, A2. clear A1 A2.
  apply andb_prop in B1 as [B1 _].
  split; [|split].
  - destruct (g_kind g) as [| [|]|]; split; intros Hx; try discriminate; reflexivity.
  - destruct (g_own g); split; intros Hx; try discriminate; reflexivity.
  - intros Hk. rewrite Hk in B1. destruct (g_order g); try discriminate; reflexivity.
Qed.

(** What fails.  Ten functions report success and give out an object that stands for nothing when there is no linked
    object.  Four use their pointer without a check.  Ten classes leave the pointer of a new object unwritten, so that
    every function that uses it is undefined. *)
Theorem C118_unchecked :
  (forall W h this g at_ out h1 o d, In g getters -> In (g_name g) unchecked_link ->
     nth_error h this = Some (Some o) -> o_class o = g_class g -> o_ptr o = To d -> w_one W (g_name g) d = None ->
     release_opt h out = VOk h1 -> out <> Some this ->
     call W h this g at_ out = VOk (h1 ++ [Some (Obj (g_cast g) 1 Null)], Some (List.length h1), kNoError)) /\
  (forall W h this g at_ out o, In g getters -> In (g_name g) unchecked_own ->
     nth_error h this = Some (Some o) -> o_class o = g_class g -> o_ptr o = Null -> call W h this g at_ out = VUB) /\
  (forall W g at_ i, In g getters -> In (g_class g) no_init -> class_of i = Some (g_class g) -> g_own g <> Embedded ->
     exists h, query_interface [] i (Some None) = VOk (h, Some (Some 0), kNoError) /\ call W h 0 g at_ None = VUB) /\
  (exists g i, In g getters /\ In (g_class g) no_init /\ class_of i = Some (g_class g) /\ g_own g <> Embedded).
Proof.
  split; [|split; [|split]].
  - intros W h this g at_ out h1 o d Hg Hn Et Ec Ep Hw R Hne. destruct (names_facts g Hg) as (F1 & _ & F3).
    apply F1 in Hn. specialize (F3 Hn).
    assert (El : lookup W g (o_ptr o) at_ = VOk (inl Null)) by (rewrite Ep; unfold lookup; rewrite Hn, Hw; destruct (g_own g); reflexivity).
    apply (call_cases W h this g at_ out h1 o _ Hg Et Ec El R Hne). rewrite F3; discriminate.
  - intros W h this g at_ out o Hg Hn Et Ec Ep. destruct (names_facts g Hg) as (_ & F2 & _). apply F2 in Hn.
    unfold call. rewrite (deref_live _ _ _ Et). cbn [vbind]. rewrite Ec, String.eqb_refl. cbn [negb].
    rewrite Ep. unfold lookup. rewrite Hn. reflexivity.
  - intros W g at_ i Hg Hc Hi Ho. eexists. split; [apply (query_ok [] _ _ None Hi)|].
    unfold call. cbn [app deref nth_error vbind o_class o_ptr]. rewrite String.eqb_refl. cbn [negb].
    assert (Fp : fresh_ptr (g_class g) = Indet) by (unfold fresh_ptr; rewrite (proj2 (in_strings _ _) Hc); reflexivity).
    rewrite Fp. unfold lookup. destruct (g_own g); [reflexivity|reflexivity|contradiction].
  - destruct (find_getter "CGdtfMacroDMXImpl::GetStepAt") as [g|] eqn:Eg; [|vm_compute in Eg; discriminate].
    destruct (iid_of "IID_GdtfMacroDMX") as [i|] eqn:Ei; [|vm_compute in Ei; discriminate].
    exists g, i. split; [apply (find_getter_in _ _ Eg)|].
    assert (A : match find_getter "CGdtfMacroDMXImpl::GetStepAt", iid_of "IID_GdtfMacroDMX" with
                | Some g, Some i => existsb (String.eqb (g_class g)) no_init &&
                    match class_of i with Some c => String.eqb c (g_class g) | None => false end &&
                    match g_own g with Embedded => false | _ => true end
                | _, _ => false end = true) by (vm_compute; reflexivity).
    rewrite Eg, Ei in A. apply andb_prop in A as [A A3]. apply andb_prop in A as [A1 A2].
    split; [apply in_strings; exact A1|]. split.
    + destruct (class_of i); [|discriminate]. apply String.eqb_eq in A2. congruence.
    + destruct (g_own g); try discriminate. 
Qed.
Theorem C118_refuted : exists W h this g o d p,
  In g getters /\ g_kind g = KOne None /\ nth_error h this = Some (Some o) /\ o_class o = g_class g /\ o_ptr o = To d /\
  w_one W (g_name g) d = None /\
  call W h this g 0 None = VOk (h ++ [Some (Obj (g_cast g) 1 p)], Some (List.length h), kNoError) /\ p = Null.
Proof.
  exists bare_world, [Some (Obj "CGdtfFixtureImpl" 1 (To 3))], 0.
  destruct (find_getter "CGdtfFixtureImpl::GetRDM") as [g|] eqn:Eg; [|vm_compute in Eg; discriminate].
  exists g, (Obj "CGdtfFixtureImpl" 1 (To 3)), 3, Null.
  destruct (find_getter_in _ _ Eg) as [Hg Hn].
  assert (A : match find_getter "CGdtfFixtureImpl::GetRDM" with
              | Some g => g_kind g = KOne None /\ g_class g = "CGdtfFixtureImpl" | None => False end)
    by (vm_compute; split; reflexivity).
  rewrite Eg in A. destruct A as [A1 A2].
  split; [exact Hg|]. split; [exact A1|]. split; [reflexivity|]. split; [symmetry; exact A2|]. split; [reflexivity|].
  split; [reflexivity|]. split; [|reflexivity].
  apply (proj1 C118_unchecked bare_world [Some (Obj "CGdtfFixtureImpl" 1 (To 3))] 0 g 0 None [Some (Obj "CGdtfFixtureImpl" 1 (To 3))]
    (Obj "CGdtfFixtureImpl" 1 (To 3)) 3 Hg); [|reflexivity| |reflexivity|reflexivity|reflexivity|].
  - rewrite Hn. cbn. auto.
  - symmetry; exact A2.
  - discriminate.
Qed.
Example C118_refuted_case :
  call bare_world [Some (Obj "CGdtfFixtureImpl" 1 (To 3))] 0 (g_of "CGdtfFixtureImpl::GetRDM") 0 None =
  VOk ([Some (Obj "CGdtfFixtureImpl" 1 (To 3)); Some (Obj (g_cast (g_of "CGdtfFixtureImpl::GetRDM")) 1 Null)], Some 1, 0%N).
Proof. vm_compute; reflexivity. Qed.

Print Assumptions C115_index_access.
Print Assumptions C115_wrong_check_refuted.
Print Assumptions C115_wrong_check_at_size.
Print Assumptions C115_wrong_check_partial.
Print Assumptions C115_values_wrong.
Print Assumptions C118_unchecked.
Print Assumptions C115_loop.
Print Assumptions C115_mode_break.
Print Assumptions C115_provider.
Print Assumptions C115_values_refuted.
Print Assumptions C115_values_partial.
Print Assumptions C116_identifier_order.
Print Assumptions C116_identifiers_distinct.
Print Assumptions C116_query.
Print Assumptions C116_unknown.
Print Assumptions C116_casts.
Print Assumptions C116_refuted.
Print Assumptions C117_reference_counts.
Print Assumptions C117_nothing_left.
Print Assumptions C117_exceptions.
Print Assumptions C117_refuted.
Print Assumptions C118_linked.
Print Assumptions C118_created.
Print Assumptions C118_not_set_up.
Print Assumptions C118_refuted.
