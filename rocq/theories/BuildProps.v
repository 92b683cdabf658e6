(** * C108, C109: building a scene through the API *)
From Coq Require Import String List NArith Lia Bool Arith.
From Verif Require Import Bytes Txt StringModel BuildModel.
Import ListNotations.
Open Scope nat_scope.
Open Scope list_scope.

Section Build.
  Context {M : Type}.
  Variable idm : M.
  Notation call := (@call M). Notation obj := (@obj M). Notation state := (@state M).

  (** ** Specification *)
  (** The container of a call: none if it makes no scene object, [Some None] for a layer. *)
  Definition into (c : call) : option (option nat) :=
    match c with
    | NewLayer _ _ => Some None
    | NewGroup _ _ _ c | NewObj _ _ _ _ c | NewFocus _ _ _ c | ReadFocus _ _ _ c => Some (Some c)
    | _ => None
    end.
  (** An object is what it was created as; the matrix of a group is not claimed. *)
  Definition as_made (c : call) (x : obj) : Prop :=
    match c with
    | NewLayer g n => o_kind x = Layer /\ o_guid x = g /\ o_name x = n /\ o_in x = None
    | NewGroup g _ n c => o_kind x = Group /\ o_guid x = g /\ o_name x = match n with Some n => n | None => [] end /\ o_in x = Some c
    | NewObj k g m n c => o_kind x = k /\ o_guid x = g /\ o_name x = n /\ o_matrix x = m /\ o_in x = Some c
    | NewFocus g m n c | ReadFocus g m n c => o_kind x = Focus /\ o_guid x = g /\ o_name x = n /\ o_matrix x = m /\ o_in x = Some c
    | _ => False
    end.
  (** The objects handed out, in order; those of a container. *)
  Definition objects (l : list answer) : list nat := flat_map (fun a => match a with AnObj p => [p] | _ => [] end) l.
  Definition same (a b : option nat) : bool := match a, b with None, None => true | Some i, Some j => i =? j | _, _ => false end.
  Definition made_in (own : option nat) (cs : list call) (l : list answer) : list nat :=
    objects (map snd (filter (fun e => match into (fst e) with Some o => same o own | None => false end) (combine cs l))).
  (** No focus point is created with the name, up to case, of one that was read before. *)
  Definition apart (cs : list call) : Prop := forall a g m n c b, cs = a ++ NewFocus g m n c :: b ->
    forall g' m' n' c', In (ReadFocus g' m' n' c') a -> txeq n' n = false.

  (** ** The heap after one call *)
  Lemma nth_upd {A} (f : A -> A) l : forall i j, nth_error (upd i f l) j = if i =? j then option_map f (nth_error l j) else nth_error l j.
  Proof.
    induction l as [|x l IH]; intros [|i] [|j]; cbn [upd nth_error Nat.eqb option_map]; try reflexivity; [now destruct (i =? j)|apply IH].
  Qed.
  Lemma upd_len {A} (f : A -> A) l : forall i, List.length (upd i f l) = List.length l.
  Proof. induction l as [|x l IH]; intros [|i]; cbn [upd List.length]; try reflexivity. now rewrite IH. Qed.
  Lemma last_in l p : last_of l = Some p -> exists r, l = r ++ [p].
  Proof. unfold last_of. destruct (rev l) as [|q r] eqn:E; [discriminate|]. intros [= ->]. exists (rev r). rewrite <- (rev_involutive l), E. reflexivity. Qed.
  Lemma last_none l : last_of l = None -> l = [].
  Proof. unfold last_of. destruct (rev l) as [|q r] eqn:E; [|discriminate]. intros _. rewrite <- (rev_involutive l), E. reflexivity. Qed.
  Lemma link_len l p (h : list obj) : List.length (link l p h) = List.length h.
  Proof. unfold link. destruct (last_of l); [apply upd_len|reflexivity]. Qed.
  Definition lst (s : state) (own : option nat) : list nat := match own with None => layers s | Some c => children (heap s) c end.
  Definition grown (own : option nat) (L : list nat) (n : nat) (p : nat) (x : obj) : obj :=
    mkObj (o_kind x) (o_guid x) (o_name x) (o_matrix x) (o_in x) (if same (last_of L) (Some p) then Some n else o_next x) (if same own (Some p) then o_children x ++ [n] else o_children x).
  Lemma nth_link l p (h : list obj) q : nth_error (link l p h) q = if same (last_of l) (Some q) then option_map (set_next (Some p)) (nth_error h q) else nth_error h q.
  Proof. unfold link. destruct (last_of l) as [r|]; [|reflexivity]. cbn [same]. apply nth_upd. Qed.
  Lemma after_child h c (x0 : obj) : Forall (fun p => p < List.length h) (children h c) -> c < List.length h -> o_next x0 = None -> o_children x0 = [] ->
    forall p, nth_error (add_object c (List.length h) (h ++ [x0])) p =
      if p =? List.length h then Some (set_in (Some c) x0) else option_map (grown (Some c) (children h c) (List.length h) p) (nth_error h p).
  Proof.
    intros F C N K p. unfold add_object. assert (CH : children (h ++ [x0]) c = children h c) by (unfold children; now rewrite nth_error_app1).
    rewrite CH, !nth_upd, nth_link. assert (L : same (last_of (children h c)) (Some (List.length h)) = false).
    { destruct (last_of (children h c)) as [q|] eqn:E; [|reflexivity]. cbn. apply Nat.eqb_neq. apply last_in in E as (r & E). rewrite E in F. apply Forall_app in F as (_ & F). apply Forall_inv in F. lia. }
    rewrite (Nat.eqb_sym p). destruct (List.length h =? p) eqn:E.
    - apply Nat.eqb_eq in E. subst p. replace (c =? List.length h) with false by (symmetry; apply Nat.eqb_neq; lia). rewrite L, nth_error_app2, Nat.sub_diag by lia. reflexivity.
    - apply Nat.eqb_neq in E. unfold grown. cbn [same]. replace (nth_error (h ++ [x0]) p) with (nth_error h p).
      + destruct (c =? p), (same (last_of (children h c)) (Some p)), (nth_error h p) as [x|]; cbn [option_map add_child set_next]; try reflexivity; destruct x; reflexivity.
      + destruct (Nat.lt_ge_cases p (List.length h)) as [Lt|Ge]; [now rewrite nth_error_app1|]. rewrite (proj2 (nth_error_None h p)) by lia. symmetry. apply nth_error_None. rewrite app_length. cbn. lia.
  Qed.
  Lemma after_layer h L (x0 : obj) : Forall (fun p => p < List.length h) L -> o_next x0 = None ->
    forall p, nth_error (link L (List.length h) (h ++ [x0])) p =
      if p =? List.length h then Some x0 else option_map (grown None L (List.length h) p) (nth_error h p).
  Proof.
    intros F N p. rewrite nth_link. rewrite (Nat.eqb_sym p). destruct (List.length h =? p) eqn:E.
    - apply Nat.eqb_eq in E. subst p. rewrite nth_error_app2, Nat.sub_diag by lia. cbn [nth_error]. destruct (last_of L) as [q|] eqn:E; [|reflexivity]. cbn [same]. replace (q =? List.length h) with false; [reflexivity|]. symmetry. apply Nat.eqb_neq. apply last_in in E as (r & ->). apply Forall_app in F as (_ & F). apply Forall_inv in F. lia.
    - apply Nat.eqb_neq in E. unfold grown. cbn [same]. replace (nth_error (h ++ [x0]) p) with (nth_error h p).
      + destruct (same (last_of L) (Some p)), (nth_error h p) as [x|]; cbn [option_map set_next]; try reflexivity; destruct x; reflexivity.
      + destruct (Nat.lt_ge_cases p (List.length h)) as [Lt|Ge]; [now rewrite nth_error_app1|]. rewrite (proj2 (nth_error_None h p)) by lia. symmetry. apply nth_error_None. rewrite app_length. cbn. lia.
  Qed.

  (** ** The invariant *)
  Definition chained (h : list obj) (own : option nat) (L : list nat) : Prop :=
    NoDup L /\ (forall p, In p L -> exists x, nth_error h p = Some x /\ o_in x = own) /\
    (forall i p, nth_error L i = Some p -> exists x, nth_error h p = Some x /\ o_next x = nth_error L (S i)).
  Definition inv (cs : list call) (l : list answer) (s : state) : Prop :=
    List.length l = List.length cs /\ objects l = seq 0 (List.length (heap s)) /\ (forall own, lst s own = made_in own cs l) /\ (forall own, chained (heap s) own (lst s own)) /\
    (forall i c p, nth_error cs i = Some c -> nth_error l i = Some (AnObj p) -> exists x, nth_error (heap s) p = Some x /\ as_made c x) /\
    (forall p, In p (focus s) -> exists x g m c, nth_error (heap s) p = Some x /\ In (ReadFocus g m (o_name x) c) cs).
  Lemma chained_lt h own L : chained h own L -> Forall (fun p => p < List.length h) L.
  Proof. intros (_ & A & _). apply Forall_forall. intros p I. destruct (A p I) as (x & E & _). apply nth_error_Some. congruence. Qed.
  Lemma same_eq a b : same a b = true <-> a = b.
  Proof. destruct a as [i|], b as [j|]; cbn [same]; try (split; [discriminate|congruence]); [rewrite Nat.eqb_eq; split; congruence|tauto]. Qed.
  (** What happens to the other list of objects, and to the one that grows. *)
  Lemma grow_chain h h' own L x0 : chained h own L -> o_next x0 = None -> o_in x0 = own ->
    (forall p, nth_error h' p = if p =? List.length h then Some x0 else option_map (grown own L (List.length h) p) (nth_error h p)) -> chained h' own (L ++ [List.length h]).
  Proof.
    intros C N I H. pose proof (chained_lt _ _ _ C) as F. destruct C as (D & A & B). rewrite Forall_forall in F. split; [|split].
    - clear -D F. induction L as [|q L IH]; cbn [app]; [repeat constructor; easy|]. inversion_clear D as [|? ? D1 D2]. constructor; [|apply IH; [exact D2|intros; apply F; now right]]. rewrite in_app_iff. intros [J|[J|[]]]; [now apply D1|]. specialize (F q (or_introl eq_refl)). lia.
    - intros p J. rewrite H. apply in_app_iff in J as [J|[<-|[]]].
      + destruct (A p J) as (x & E & E'). specialize (F p J). replace (p =? List.length h) with false by (symmetry; apply Nat.eqb_neq; lia). rewrite E. cbn [option_map]. eexists. split; [reflexivity|exact E'].
      + rewrite Nat.eqb_refl. now exists x0.
    - intros i p J. rewrite H. destruct (Nat.lt_ge_cases i (List.length L)) as [Lt|Ge].
      + rewrite nth_error_app1 in J by exact Lt. pose proof (nth_error_In _ _ J) as J'. destruct (B i p J) as (x & E & E'). specialize (F p J'). replace (p =? List.length h) with false by (symmetry; apply Nat.eqb_neq; lia). rewrite E. cbn [option_map]. eexists. split; [reflexivity|]. cbn [grown o_next].
        destruct (Nat.eq_dec (S i) (List.length L)) as [La|La].
        * rewrite La, nth_error_app2, Nat.sub_diag by lia. cbn [nth_error]. replace (last_of L) with (Some p); [cbn [same]; now rewrite Nat.eqb_refl|].
          destruct (last_of L) as [q|] eqn:Q; [|apply last_none in Q; subst L; cbn in Lt; lia]. apply last_in in Q as (r & Q). subst L. rewrite app_length in La. cbn in La. rewrite nth_error_app2 in J by lia. replace (i - List.length r) with 0 in J by lia. cbn in J. congruence.
        * rewrite nth_error_app1 by lia. rewrite <- E'. destruct (same (last_of L) (Some p)) eqn:Q; [|reflexivity]. exfalso. apply same_eq in Q. apply last_in in Q as (r & Q). subst L. rewrite app_length in La, Lt. cbn in La, Lt. rewrite nth_error_app1 in J by lia. apply NoDup_remove_2 in D. rewrite app_nil_r in D. apply D. eapply nth_error_In. exact J.
      + rewrite nth_error_app2 in J by exact Ge. destruct (i - List.length L) as [|k] eqn:K; [|destruct k; discriminate J]. cbn in J. injection J as <-. rewrite Nat.eqb_refl. exists x0. split; [reflexivity|]. rewrite N. symmetry. apply nth_error_None. rewrite app_length. cbn. lia.
  Qed.
  Lemma other_chain h h' own L x0 own' L' : chained h own L -> chained h own' L' -> own' <> own -> 
    (forall p, nth_error h' p = if p =? List.length h then Some x0 else option_map (grown own L (List.length h) p) (nth_error h p)) -> chained h' own' L'.
  Proof.
    intros C C' Ne H. pose proof (chained_lt _ _ _ C') as F. destruct C as (_ & A & _). destruct C' as (D' & A' & B'). rewrite Forall_forall in F. split; [exact D'|]. split.
    - intros p I. destruct (A' p I) as (x & E & E'). specialize (F p I). rewrite H. replace (p =? List.length h) with false by (symmetry; apply Nat.eqb_neq; lia). rewrite E. eexists. split; [reflexivity|exact E'].
    - intros i p I. destruct (B' i p I) as (x & E & E'). pose proof (nth_error_In _ _ I) as I'. specialize (F p I'). rewrite H. replace (p =? List.length h) with false by (symmetry; apply Nat.eqb_neq; lia). rewrite E. eexists. split; [reflexivity|]. cbn [grown o_next]. rewrite <- E'. destruct (same (last_of L) (Some p)) eqn:Q; [|reflexivity]. exfalso. apply same_eq, last_in in Q as (r & ->).
      destruct (A p ltac:(apply in_app_iff; right; now left)) as (y & Y & Y'). destruct (A' p I') as (z & Z & Z'). congruence.
  Qed.
  Lemma combine_snoc {A B} (a : list A) : forall (b : list B) x y, List.length b = List.length a -> combine (a ++ [x]) (b ++ [y]) = combine a b ++ [(x, y)].
  Proof. induction a as [|z a IH]; intros [|w b] x y L; try discriminate L; [reflexivity|]. cbn [combine app]. f_equal. apply IH. now injection L. Qed.
  Lemma objects_app a b : objects (a ++ b) = objects a ++ objects b.
  Proof. apply flat_map_app. Qed.
  Lemma made_snoc own cs l c a : List.length l = List.length cs -> made_in own (cs ++ [c]) (l ++ [a]) =
    made_in own cs l ++ (if match into c with Some o => same o own | None => false end then objects [a] else []).
  Proof.
    intros L. unfold made_in. rewrite combine_snoc by exact L. rewrite filter_app, map_app, objects_app. f_equal. cbn [filter fst]. destruct (into c) as [o|]; [|reflexivity]. now destruct (same o own).
  Qed.
  Lemma nth_snoc {A} (l : list A) x i y : nth_error (l ++ [x]) i = Some y -> nth_error l i = Some y \/ (i = List.length l /\ y = x).
  Proof.
    destruct (Nat.lt_ge_cases i (List.length l)) as [L|G]; [rewrite nth_error_app1 by exact L; now left|]. rewrite nth_error_app2 by exact G. destruct (i - List.length l) as [|k] eqn:E; [|destruct k; discriminate]. cbn. intros [= <-]. right. split; [lia|reflexivity].
  Qed.
  Lemma inv_skip cs l s c a s' : inv cs l s -> (forall p, a <> AnObj p) -> heap s' = heap s -> layers s' = layers s -> focus s' = focus s -> inv (cs ++ [c]) (l ++ [a]) s'.
  Proof.
    intros (L & O & K & C & A & F) Na H Y Z. assert (LS : forall own, lst s' own = lst s own) by (intros [q|]; cbn [lst]; now rewrite ?H, ?Y). split; [|split; [|split; [|split; [|split]]]].
    - rewrite !app_length. cbn. lia.
    - rewrite objects_app, H, O. destruct a as [p| |]; [now contradiction (Na p)| |]; cbn; apply app_nil_r.
    - intros own. rewrite LS, K, made_snoc by exact L. destruct a as [p| |]; [now contradiction (Na p)| |]; destruct (match into c with Some o => same o own | None => false end); cbn; now rewrite app_nil_r.
    - intros own. rewrite LS, H. apply C.
    - intros i d p I J. rewrite H. apply nth_snoc in J as [J|(J & E)]; [|now contradiction (Na p)]. apply nth_snoc in I as [I|(I & E)]; [now apply (A i)|]. subst i. rewrite <- L in J. assert (nth_error l (List.length l) = None) by (apply nth_error_None; lia). congruence.
    - intros p. rewrite Z, H. intros I. destruct (F p I) as (x & g & m & c0 & E & J). exists x, g, m, c0. split; [exact E|]. apply in_app_iff. now left.
  Qed.
  Lemma inv_new cs l s c own x0 s' : inv cs l s -> into c = Some own -> (forall q, own = Some q -> q < List.length (heap s)) -> o_next x0 = None -> o_in x0 = own -> o_children x0 = [] -> as_made c x0 ->
    List.length (heap s') = S (List.length (heap s)) ->
    (forall p, nth_error (heap s') p = if p =? List.length (heap s) then Some x0 else option_map (grown own (lst s own) (List.length (heap s)) p) (nth_error (heap s) p)) ->
    layers s' = match own with None => layers s ++ [List.length (heap s)] | Some _ => layers s end ->
    (focus s' = focus s \/ (focus s' = focus s ++ [List.length (heap s)] /\ exists g m q, c = ReadFocus g m (o_name x0) q)) ->
    inv (cs ++ [c]) (l ++ [AnObj (List.length (heap s))]) s'.
  Proof.
    intros (L & O & K & C & A & F) IN Q N I X AM HL H Y Z. set (n := List.length (heap s)) in *.
    assert (LS : forall own', lst s' own' = lst s own' ++ (if same own own' then [n] else [])).
    { intros [q|]; cbn [lst].
      - unfold children. rewrite H. destruct (q =? n) eqn:E.
        + apply Nat.eqb_eq in E. subst q. rewrite X. replace (nth_error (heap s) n) with (@None obj) by (symmetry; apply nth_error_None; unfold n; lia). destruct (same own (Some n)) eqn:E; [|reflexivity]. apply same_eq in E. specialize (Q n E). unfold n in Q. lia.
        + destruct (nth_error (heap s) q) as [x|] eqn:E'; cbn [option_map grown o_children]; destruct (same own (Some q)) eqn:E2; rewrite ?app_nil_r; try reflexivity. apply same_eq in E2. specialize (Q q E2). apply nth_error_None in E'. unfold n in Q. lia.
      - rewrite Y. destruct own; cbn [same]; now rewrite ?app_nil_r. }
    split; [|split; [|split; [|split; [|split]]]].
    - rewrite !app_length. cbn. lia.
    - rewrite objects_app, O, HL, seq_S. reflexivity.
    - intros own'. rewrite LS, K, made_snoc by exact L. rewrite IN. destruct (same own own'); reflexivity.
    - intros own'. rewrite LS. destruct (same own own') eqn:E.
      + apply same_eq in E. subst own'. eapply grow_chain; [apply C|exact N|exact I|exact H].
      + rewrite app_nil_r. eapply other_chain; [apply (C own)|apply C| |exact H]. intros E'. subst own'. assert (same own own = true) by (now apply same_eq). congruence.
    - intros i d p J1 J2. apply nth_snoc in J2 as [J2|(J2 & E)].
      + apply nth_snoc in J1 as [J1|(J1 & E)]; [|subst i; rewrite <- L in J2; assert (nth_error l (List.length l) = None) by (apply nth_error_None; lia); congruence].
        destruct (A i d p J1 J2) as (x & E & AMx). exists (grown own (lst s own) n p x). split; [|destruct d; exact AMx]. rewrite H, E. replace (p =? n) with false; [reflexivity|]. symmetry. apply Nat.eqb_neq. assert (p < List.length (heap s)) by (apply nth_error_Some; congruence). unfold n. lia.
      + injection E as ->. subst i. apply nth_snoc in J1 as [J1|(J1 & ->)]; [rewrite L in J1; assert (nth_error cs (List.length cs) = None) by (apply nth_error_None; lia); congruence|]. exists x0. split; [|exact AM]. now rewrite H, Nat.eqb_refl.
    - assert (OLD : forall p, In p (focus s) -> exists x g m c0, nth_error (heap s') p = Some x /\ In (ReadFocus g m (o_name x) c0) (cs ++ [c])).
      { intros p J. destruct (F p J) as (x & g & m & c0 & E & J'). exists (grown own (lst s own) n p x), g, m, c0. split; [|apply in_app_iff; now left]. rewrite H, E. replace (p =? n) with false; [reflexivity|]. symmetry. apply Nat.eqb_neq. assert (p < List.length (heap s)) by (apply nth_error_Some; congruence). unfold n. lia. }
      intros p. destruct Z as [->|(-> & g & m & q & ->)]; [apply OLD|]. intros J. apply in_app_iff in J as [J|[<-|[]]]; [now apply OLD|]. exists x0, g, m, q. split; [now rewrite H, Nat.eqb_refl|]. apply in_app_iff. right. now left.
  Qed.
  Lemma add_len c p (h : list obj) : List.length (add_object c p h) = List.length h.
  Proof. unfold add_object. now rewrite !upd_len, link_len. Qed.
  Lemma first_named_in s n L p : first_named s n L = Some p -> In p L /\ exists x : obj, nth_error (heap s) p = Some x /\ txeq (o_name x) n = true.
  Proof.
    induction L as [|q L IH]; [discriminate|]. cbn [first_named]. unfold is_named. destruct (nth_error (heap s) q) as [x|] eqn:E; [destruct (txeq (o_name x) n) eqn:Q|]; [intros [= <-]; split; [now left|now exists x]| |]; intros J; destruct (IH J); (split; [now right|assumption]).
  Qed.
  Lemma create_inv cs l s c k g n m q : inv cs l s -> into c = Some (Some q) -> q < List.length (heap s) -> as_made c (mkObj k g n m (Some q) None []) ->
    forall f, (f = focus s \/ (f = focus s ++ [List.length (heap s)] /\ exists g m q, c = ReadFocus g m n q)) ->
    let (a, s1) := create k g n m q s in inv (cs ++ [c]) (l ++ [a]) (mkSt (heap s1) (layers s1) f (positions s1) (classes s1) (mappings s1) (symdefs s1)).
  Proof.
    intros I IN Q AM f F. unfold create. apply (inv_new cs l s c (Some q) (mkObj k g n m (Some q) None [])); cbn [heap layers focus with_heap o_next o_in o_children o_name]; try assumption; try reflexivity.
    - intros p [= <-]. exact Q.
    - rewrite add_len, app_length. cbn. lia.
    - intros p. destruct I as (_ & _ & _ & C & _). rewrite after_child; [reflexivity|apply (chained_lt _ _ _ (C (Some q)))|exact Q|reflexivity|reflexivity].
  Qed.
  Lemma apart_prefix a b : apart (a ++ b) -> apart a.
  Proof. intros H x g m n c y E. apply (H x g m n c (y ++ b)). now rewrite E, <- app_assoc. Qed.
  Lemma step_inv cs l s c : inv cs l s -> apart (cs ++ [c]) -> let (a, s') := step idm c s in inv (cs ++ [c]) (l ++ [a]) s'.
  Proof.
    intros I AP. destruct c as [g n|g m n q|k g m n q|g m n q|g m n q|g n|g n|g n|g new n]; cbn [step].
    - apply (inv_new cs l s _ None (mkObj Layer g n idm None None [])); cbn [heap layers focus o_next o_in o_children]; try assumption; try reflexivity; try discriminate.
      + repeat split.
      + rewrite link_len, app_length. cbn. lia.
      + intros p. destruct I as (_ & _ & _ & C & _). rewrite after_layer; [reflexivity|apply (chained_lt _ _ _ (C None))|reflexivity].
      + now left.
    - destruct (valid s q) eqn:V; [|apply inv_skip with (s := s); easy]. apply Nat.ltb_lt in V. apply (create_inv cs l s (NewGroup g m n q) Group g _ idm q I eq_refl V ltac:(repeat split) (focus s)). now left.
    - destruct (valid s q) eqn:V; [|apply inv_skip with (s := s); easy]. apply Nat.ltb_lt in V. apply (create_inv cs l s (NewObj k g m n q) k g n m q I eq_refl V ltac:(repeat split) (focus s)). now left.
    - destruct (valid s q) eqn:V; [|apply inv_skip with (s := s); easy]. apply Nat.ltb_lt in V. destruct (first_named s n (focus s)) as [p|] eqn:FN.
      + exfalso. apply first_named_in in FN as (J & x & E & Q). destruct I as (_ & _ & _ & _ & _ & F). destruct (F p J) as (x' & g' & m' & c' & E' & R). assert (x' = x) by congruence. subst x'. rewrite (AP cs g m n q [] eq_refl _ _ _ _ R) in Q. discriminate.
      + apply (create_inv cs l s (NewFocus g m n q) Focus g n m q I eq_refl V ltac:(repeat split) (focus s)). now left.
    - destruct (valid s q) eqn:V; [|apply inv_skip with (s := s); easy]. apply Nat.ltb_lt in V. apply (create_inv cs l s (ReadFocus g m n q) Focus g n m q I eq_refl V ltac:(repeat split) (focus s ++ [List.length (heap s)])). right. split; [reflexivity|]. now exists g, m, q.
    - destruct (find_at _ _ _); apply inv_skip with (s := s); easy.
    - destruct (find_at _ _ _); apply inv_skip with (s := s); easy.
    - destruct (find_at _ _ _); apply inv_skip with (s := s); easy.
    - destruct (find_at _ _ _); apply inv_skip with (s := s); easy.
  Qed.
  Lemma run_snoc cs c : forall s, run idm (cs ++ [c]) s = let (l, s1) := run idm cs s in let (a, s2) := step idm c s1 in (l ++ [a], s2).
  Proof.
    induction cs as [|d cs IH]; intros s; cbn [app run]; [destruct (step idm c s); reflexivity|]. destruct (step idm d s) as (a, s1). rewrite IH. destruct (run idm cs s1) as (l, s2). destruct (step idm c s2). reflexivity.
  Qed.
  Lemma run_inv cs : apart cs -> forall l s, run idm cs empty = (l, s) -> inv cs l s.
  Proof.
    induction cs as [|c cs IH] using rev_ind; intros AP l s R.
    - injection R as <- <-. split; [reflexivity|]. split; [reflexivity|]. split; [intros [q|]; [destruct q|]; reflexivity|]. split; [intros [q|]; [destruct q|]; (split; [constructor|split; [intros p []|intros [|i] p; discriminate]])|]. split; [intros [|i]; discriminate|intros p []].
    - rewrite run_snoc in R. destruct (run idm cs empty) as (l1, s1) eqn:R1. pose proof (step_inv cs l1 s1 c (IH (apart_prefix _ _ AP) _ _ eq_refl) AP) as H. destruct (step idm c s1) as (a, s2). injection R as <- <-. exact H.
  Qed.
  Lemma through s own L : chained (heap s) own L -> forall n i, List.length L <= i + n -> go_through n s (nth_error L i) = Some (skipn i L).
  Proof.
    intros (_ & _ & B). induction n as [|n IH]; intros i Le; cbn [go_through].
    - rewrite (proj2 (nth_error_None L i)) by lia. now rewrite skipn_all2 by lia.
    - destruct (nth_error L i) as [p|] eqn:E; [|apply nth_error_None in E; now rewrite skipn_all2 by lia]. destruct (B i p E) as (x & X & NX). unfold next. rewrite X, NX, IH by lia. f_equal. clear -E. revert i E. induction L as [|y L IH]; intros [|i] E; try discriminate E; cbn in *; [congruence|now apply IH].
  Qed.
  Lemma hd_nth {A} (L : list A) : match L with [] => None | p :: _ => Some p end = nth_error L 0.
  Proof. now destruct L. Qed.

  (** ** C108: every object is what it was created as *)
  Theorem C108_objects cs l s : apart cs -> run idm cs empty = (l, s) ->
    NoDup (objects l) /\ forall i c p, nth_error cs i = Some c -> nth_error l i = Some (AnObj p) -> exists x, nth_error (heap s) p = Some x /\ as_made c x.
  Proof. intros AP R. destruct (run_inv cs AP l s R) as (_ & O & _ & _ & A & _). split; [rewrite O; apply seq_NoDup|exact A]. Qed.
  (** ** C109: going through the scene gives what was created, in order *)
  Theorem C109_children cs l s : apart cs -> run idm cs empty = (l, s) -> forall c, go_through (List.length (heap s)) s (first_child s c) = Some (made_in (Some c) cs l).
  Proof.
    intros AP R c. destruct (run_inv cs AP l s R) as (_ & _ & K & C & _). rewrite <- K. unfold first_child. rewrite hd_nth. apply (through s (Some c) _ (C (Some c)) _ 0). pose proof (chained_lt _ _ _ (C (Some c))) as F. destruct (C (Some c)) as (D & _). cbn [lst plus] in *.
    rewrite <- (seq_length (List.length (heap s)) 0). apply NoDup_incl_length; [exact D|]. intros p I. rewrite Forall_forall in F. apply in_seq. specialize (F p I). lia.
  Qed.
  Theorem C109_layers cs l s : apart cs -> run idm cs empty = (l, s) -> go_through (List.length (heap s)) s (first_layer s) = Some (made_in None cs l).
  Proof.
    intros AP R. destruct (run_inv cs AP l s R) as (_ & _ & K & C & _). rewrite <- K. unfold first_layer. rewrite hd_nth. apply (through s None _ (C None) _ 0). pose proof (chained_lt _ _ _ (C None)) as F. destruct (C None) as (D & _). cbn [lst plus] in *.
    rewrite <- (seq_length (List.length (heap s)) 0). apply NoDup_incl_length; [exact D|]. intros p I. rewrite Forall_forall in F. apply in_seq. specialize (F p I). lia.
  Qed.
  (** Only a container that was not handed out is refused. *)
  Theorem C108_accepted cs c l s a s' : apart cs -> run idm cs empty = (l, s) -> step idm c s = (a, s') ->
    (into c = Some None -> exists p, a = AnObj p) /\ forall q, into c = Some (Some q) -> (In q (objects l) -> exists p, a = AnObj p) /\ (~ In q (objects l) -> a = NoContainer /\ s' = s).
  Proof.
    intros AP R ST. destruct (run_inv cs AP l s R) as (_ & O & _). rewrite O.
    assert (V : forall q, valid s q = true <-> In q (seq 0 (List.length (heap s)))) by (intros q; unfold valid; rewrite Nat.ltb_lt, in_seq; lia).
    split; [destruct c; cbn [into]; try discriminate; intros _; cbn [step] in ST; injection ST as <- _; now eexists|].
    intros q IN. split; intros I.
    - apply V in I. destruct c; cbn [into] in IN; try discriminate IN; injection IN as ->; cbn [step] in ST; rewrite I in ST; unfold create in ST; try (injection ST as <- _; now eexists).
      destruct (first_named _ _ _); injection ST as <- _; now eexists.
    - assert (I' : valid s q = false) by (destruct (valid s q) eqn:E; [apply V in E; contradiction|reflexivity]). destruct c; cbn [into] in IN; try discriminate IN; injection IN as ->; cbn [step] in ST; rewrite I' in ST; injection ST as <- <-; now split.
  Qed.

  (** ** Positions, classes, mapping definitions and symbol definitions *)
  Inductive sort := Positions | Classes | Mappings | SymDefs.
  Definition stored (k : sort) (s : state) : list aux := match k with Positions => positions s | Classes => classes s | Mappings => mappings s | SymDefs => symdefs s end.
  Definition asks (c : call) : option (sort * aux) :=
    match c with
    | NewPosition g n => Some (Positions, mkAux g n)
    | NewClass g n => Some (Classes, mkAux g n)
    | NewMapping g n => Some (Mappings, mkAux g n)
    | NewSymDef g new n => Some (SymDefs, mkAux (if (g =? 0)%N then new else g) n)
    | _ => None
    end.
  (** Positions and classes have different names, up to case, mapping and symbol definitions different GUIDs. *)
  Definition clash (k : sort) (a b : aux) : bool := match k with Positions | Classes => txeq (a_name a) (a_name b) | _ => (a_guid a =? a_guid b)%N end.
  Definition distinct (cs : list call) : Prop := forall u c v d w k a b, cs = u ++ c :: v ++ d :: w -> asks c = Some (k, a) -> asks d = Some (k, b) -> clash k a b = false.
  Definition asked (k : sort) (cs : list call) : list aux :=
    flat_map (fun c => match asks c with Some (k', a) => match k, k' with Positions, Positions | Classes, Classes | Mappings, Mappings | SymDefs, SymDefs => [a] | _, _ => [] end | None => [] end) cs.
  Lemma asked_in k cs a : In a (asked k cs) -> exists u c v, cs = u ++ c :: v /\ asks c = Some (k, a).
  Proof.
    unfold asked. rewrite in_flat_map. intros (c & I & J). apply in_split in I as (u & v & ->). exists u, c, v. split; [reflexivity|]. destruct (asks c) as [(k', b)|]; [|destruct J]. destruct k, k'; try destruct J as [->|[]]; try destruct J; reflexivity.
  Qed.
  Lemma find_none {A} (f : A -> bool) l : forall i, (forall x, In x l -> f x = false) -> find_at f l i = None.
  Proof. induction l as [|x l IH]; intros i H; [reflexivity|]. cbn [find_at]. rewrite (H x (or_introl eq_refl)). apply IH. intros y I. apply H. now right. Qed.
  Lemma stored_other k s s' : (positions s' = positions s /\ classes s' = classes s /\ mappings s' = mappings s /\ symdefs s' = symdefs s) -> stored k s' = stored k s.
  Proof. intros (A & B & C & D). destruct k; assumption. Qed.
  Lemma step_aux cs s c : (forall k, stored k s = asked k cs) -> distinct (cs ++ [c]) -> let (a, s') := step idm c s in
    (forall k, stored k s' = asked k (cs ++ [c])) /\ forall k b, asks c = Some (k, b) -> a = AnAux (List.length (asked k cs)).
  Proof.
    intros H D. assert (AP : forall k, asked k (cs ++ [c]) = asked k cs ++ asked k [c]) by (intros k; apply flat_map_app).
    assert (FR : forall k b, asks c = Some (k, b) -> forall a, In a (asked k cs) -> clash k a b = false).
    { intros k b E a I. apply asked_in in I as (u & d & v & -> & E'). apply (D u d v c [] k a b); [now rewrite <- app_assoc|exact E'|exact E]. }
    assert (SAME : asks c = None -> forall s' : state, (positions s' = positions s /\ classes s' = classes s /\ mappings s' = mappings s /\ symdefs s' = symdefs s) -> forall k, stored k s' = asked k (cs ++ [c])).
    { intros N s' E k. rewrite AP, (stored_other k _ _ E), H. unfold asked at 3. cbn [flat_map]. rewrite N. cbn. now rewrite app_nil_r. }
    destruct c as [g n|g m n q|k g m n q|g m n q|g m n q|g n|g n|g n|g new n]; cbn [step].
    - split; [|discriminate]. apply SAME; [reflexivity|repeat split].
    - destruct (valid s q); (split; [|discriminate]; apply SAME; [reflexivity|repeat split]).
    - destruct (valid s q); (split; [|discriminate]; apply SAME; [reflexivity|repeat split]).
    - destruct (valid s q); [destruct (first_named s n (focus s))|]; (split; [|discriminate]; apply SAME; [reflexivity|repeat split]).
    - destruct (valid s q); (split; [|discriminate]; apply SAME; [reflexivity|repeat split]).
    - rewrite find_none.
      + split; [intros k; rewrite AP; destruct k; cbn; rewrite ?app_nil_r; rewrite <- ?H; reflexivity|]. intros k b [= <- <-]. now rewrite <- H.
      + intros x I. rewrite (H Positions : positions s = _) in I. exact (FR Positions (mkAux g n) eq_refl x I).
    - rewrite find_none.
      + split; [intros k; rewrite AP; destruct k; cbn; rewrite ?app_nil_r; rewrite <- ?H; reflexivity|]. intros k b [= <- <-]. now rewrite <- H.
      + intros x I. rewrite (H Classes : classes s = _) in I. exact (FR Classes (mkAux g n) eq_refl x I).
    - rewrite find_none.
      + split; [intros k; rewrite AP; destruct k; cbn; rewrite ?app_nil_r; rewrite <- ?H; reflexivity|]. intros k b [= <- <-]. now rewrite <- H.
      + intros x I. rewrite (H Mappings : mappings s = _) in I. exact (FR Mappings (mkAux g n) eq_refl x I).
    - cbn zeta. rewrite find_none.
      + split; [intros k; rewrite AP; destruct k; cbn; rewrite ?app_nil_r; rewrite <- ?H; reflexivity|]. intros k b [= <- <-]. now rewrite <- H.
      + intros x I. rewrite (H SymDefs : symdefs s = _) in I. exact (FR SymDefs (mkAux (if (g =? 0)%N then new else g) n) eq_refl x I).
  Qed.
  Theorem C108_others cs l s : distinct cs -> run idm cs empty = (l, s) -> (forall k, stored k s = asked k cs) /\
    forall i c k a, nth_error cs i = Some c -> asks c = Some (k, a) -> exists j, nth_error l i = Some (AnAux j) /\ nth_error (stored k s) j = Some a.
  Proof.
    revert l s. enough (H : forall l s, distinct cs -> run idm cs empty = (l, s) -> List.length l = List.length cs /\ (forall k, stored k s = asked k cs) /\
      forall i c k a, nth_error cs i = Some c -> asks c = Some (k, a) -> exists j, nth_error l i = Some (AnAux j) /\ nth_error (stored k s) j = Some a) by (intros l s D R; apply (H l s D R)).
    induction cs as [|c cs IH] using rev_ind; intros l s D R.
    - injection R as <- <-. split; [reflexivity|]. split; [intros []; reflexivity|]. intros [|i]; discriminate.
    - rewrite run_snoc in R. destruct (run idm cs empty) as (l1, s1) eqn:R1. assert (D1 : distinct cs) by (intros u e v d w k a b E; apply (D u e v d (w ++ [c])); rewrite E; now rewrite <- !app_assoc, <- app_comm_cons, <- app_assoc).
      destruct (IH l1 s1 D1 eq_refl) as (L & S1 & A). pose proof (step_aux cs s1 c S1 D) as ST. destruct (step idm c s1) as (a, s2). injection R as <- <-. destruct ST as (S2 & AN). split; [rewrite !app_length; cbn; lia|]. split; [exact S2|].
      assert (AP : forall k, asked k (cs ++ [c]) = asked k cs ++ asked k [c]) by (intros k; apply flat_map_app).
      intros i d k b I J. rewrite S2, AP. apply nth_snoc in I as [I|(-> & ->)].
      + destruct (A i d k b I J) as (j & J1 & J2). exists j. split; [rewrite nth_error_app1; [exact J1|apply nth_error_Some; congruence]|]. rewrite S1 in J2. rewrite nth_error_app1; [exact J2|apply nth_error_Some; congruence].
      + exists (List.length (asked k cs)). rewrite <- L. rewrite nth_error_app2, Nat.sub_diag by lia. split; [cbn; f_equal; exact (AN k b J)|]. rewrite nth_error_app2, Nat.sub_diag by lia. unfold asked. cbn [flat_map]. rewrite J. destruct k; reflexivity.
  Qed.
End Build.

(** ** Where it fails *)
(** A group is created without its matrix. *)
Theorem C108_group_refuted : exists (cs : list (@call N)) l s g m n p x, apart cs /\ run 0%N cs empty = (l, s) /\ nth_error cs 1 = Some (NewGroup g m n 0) /\ nth_error l 1 = Some (AnObj p) /\ nth_error (heap s) p = Some x /\ o_matrix x <> m.
Proof.
  exists [NewLayer 1%N []; NewGroup 2%N 7%N (Some (T"A")) 0]. eexists _, _, _, _, _, _, _. split; [|repeat split; cbn; discriminate].
  intros [|u [|v a]] g m n c b E; try discriminate E. destruct a; discriminate E.
Qed.
(** Two positions whose names differ only in case are one, and the first gets the GUID of the second. *)
Theorem C108_position_refuted : exists (cs : list (@call unit)) l s g n, run tt cs empty = (l, s) /\ nth_error cs 0 = Some (NewPosition g n) /\ nth_error l 0 = Some (AnAux 0) /\ nth_error l 1 = Some (AnAux 0) /\
  forall a, nth_error (positions s) 0 = Some a -> a_guid a <> g.
Proof. exists [NewPosition 1%N (T"FOH"); NewPosition 2%N (T"foh")]. eexists _, _, _, _. repeat split. cbn. intros a [= <-]. discriminate. Qed.
(** Of two classes whose names differ only in case the second has the name and the GUID of the first. *)
Theorem C108_class_refuted : exists (cs : list (@call unit)) l s g n j a, run tt cs empty = (l, s) /\ nth_error cs 1 = Some (NewClass g n) /\ nth_error l 1 = Some (AnAux j) /\ nth_error (classes s) j = Some a /\ a_guid a <> g /\ a_name a <> n.
Proof. exists [NewClass 1%N (T"Red"); NewClass 2%N (T"RED")]. eexists _, _, _, _, _, _. repeat split; cbn; discriminate. Qed.
(** A symbol definition keeps the name it had when its GUID was used first. *)
Theorem C108_symdef_refuted : exists (cs : list (@call unit)) l s g w n j a, run tt cs empty = (l, s) /\ nth_error cs 1 = Some (NewSymDef g w n) /\ nth_error l 1 = Some (AnAux j) /\ nth_error (symdefs s) j = Some a /\ a_name a <> n.
Proof. exists [NewSymDef 1%N 5%N (T"A"); NewSymDef 1%N 6%N (T"B")]. eexists _, _, _, _, _, _, _. repeat split; cbn; discriminate. Qed.
(** A focus point created with the name of one that was read is the same object, in two containers; going through the
    first container then gives an object that is not in it. *)
Theorem C109_focus_refuted : exists (cs : list (@call N)) l s p c d q x, run 0%N cs empty = (l, s) /\ c <> d /\ In p (children (heap s) c) /\ In p (children (heap s) d) /\
  (exists r, go_through 9 s (first_child s c) = Some r /\ In q r) /\ nth_error (heap s) q = Some x /\ o_in x = Some d.
Proof.
  set (cs := [NewLayer 1%N []; NewLayer 2%N []; ReadFocus 3%N 7%N (T"Drums") 0; NewFocus 4%N 8%N (T"drums") 1; NewObj Fixture 5%N 9%N (T"Spot") 1]).
  exists cs. destruct (run 0%N cs empty) as (l, s) eqn:E. vm_compute in E. injection E as <- <-. eexists _, _, 2, 0, 1, 3, _. split; [reflexivity|]. split; [discriminate|]. split; [cbn; auto|]. split; [cbn; auto|]. split; [eexists; split; [reflexivity|cbn; auto]|]. split; reflexivity.
Qed.
Definition a_scene : list (@call N) := [NewLayer 1%N (T"Truss"); NewGroup 2%N 7%N None 0; NewObj Fixture 3%N 8%N (T"Spot 1") 1; NewObj Truss 4%N 9%N (T"H1") 0; NewObj Fixture 5%N 8%N (T"Spot 2") 1; NewLayer 6%N (T"Floor");
  ReadFocus 7%N 1%N (T"Drums") 5; NewFocus 8%N 2%N (T"Singer") 0; NewObj Projector 9%N 3%N (T"P") 77; NewPosition 10%N (T"FOH"); NewClass 11%N (T"foh"); NewSymDef 0%N 12%N (T"S"); NewPosition 13%N (T"LX1")].
Definition sort_eqb (k k' : sort) : bool := match k, k' with Positions, Positions | Classes, Classes | Mappings, Mappings | SymDefs, SymDefs => true | _, _ => false end.
Fixpoint distinctb (cs : list (@call N)) : bool :=
  match cs with
  | [] => true
  | c :: r => match asks c with None => true | Some (k, a) => forallb (fun d => match asks d with Some (k', b) => negb (sort_eqb k k' && clash k a b) | None => true end) r end && distinctb r
  end.
Lemma distinctb_ok cs : distinctb cs = true -> distinct cs.
Proof.
  induction cs as [|x cs IH]; intros H u c v d w k a b E A B; [destruct u; discriminate E|]. cbn [distinctb] in H. apply andb_true_iff in H as (H & H'). destruct u as [|y u]; injection E as -> E; [|exact (IH H' u c v d w k a b E A B)].
  rewrite A in H. rewrite forallb_forall in H. specialize (H d ltac:(rewrite E; apply in_app_iff; right; now left)). rewrite B in H. destruct k; cbn [sort_eqb andb] in H; now apply negb_true_iff in H.
Qed.
Fixpoint apartb (cs : list (@call N)) : bool :=
  match cs with
  | [] => true
  | ReadFocus _ _ n' _ :: r => forallb (fun d => match d with NewFocus _ _ n _ => negb (txeq n' n) | _ => true end) r && apartb r
  | _ :: r => apartb r
  end.
Lemma apartb_ok cs : apartb cs = true -> apart cs.
Proof.
  induction cs as [|x cs IH]; intros H u g m n c b E g' m' n' c' I; [destruct u; discriminate E|]. destruct u as [|y u]; [destruct I|]. injection E as -> E. assert (H' : apartb cs = true) by (destruct y; cbn [apartb] in H; try exact H; now apply andb_true_iff in H as (_ & H)).
  destruct I as [->|I]; [|exact (IH H' u g m n c b E g' m' n' c' I)]. cbn [apartb] in H. apply andb_true_iff in H as (H & _). rewrite forallb_forall in H. specialize (H (NewFocus g m n c) ltac:(rewrite E; apply in_app_iff; right; now left)). now apply negb_true_iff in H.
Qed.
Example C109_case : apart a_scene /\ distinct a_scene /\ (let (l, s) := run 0%N a_scene empty in
  go_through (List.length (heap s)) s (first_child s 0) = Some [1; 3; 7] /\ go_through (List.length (heap s)) s (first_child s 1) = Some [2; 4] /\ go_through (List.length (heap s)) s (first_layer s) = Some [0; 5]).
Proof. split; [apply apartb_ok; vm_compute; reflexivity|]. split; [apply distinctb_ok; vm_compute; reflexivity|]. vm_compute. repeat split. Qed.
Print Assumptions C108_objects. Print Assumptions C108_accepted. Print Assumptions C108_others. Print Assumptions C109_children. Print Assumptions C109_layers.
Print Assumptions C108_group_refuted. Print Assumptions C108_position_refuted. Print Assumptions C108_class_refuted. Print Assumptions C108_symdef_refuted. Print Assumptions C109_focus_refuted.
