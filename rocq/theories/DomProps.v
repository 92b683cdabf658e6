(** Properties C119 to C122: XML nodes in the build with Xerces (DomModel.v). *)
From Coq Require Import List NArith Bool Arith Lia String.
From Verif Require Import Txt DomModel.
Import ListNotations.
Local Open Scope list_scope.

Lemma str_eqb_spec a b : str_eqb a b = true <-> a = b.
Proof.
  revert b; induction a as [|x a IH]; intros [|y b]; cbn [str_eqb]; split; intros H; try reflexivity; try discriminate.
  - apply andb_prop in H as [H1 H2]. apply N.eqb_eq in H1. apply IH in H2. subst; reflexivity.
  - pose proof (f_equal (hd 0%N) H) as H1. pose proof (f_equal (@tl N) H) as H2. cbn in H1, H2. subst.
    rewrite N.eqb_refl. cbn. apply IH; reflexivity.
Qed.
Lemma str_eqb_refl a : str_eqb a a = true.
Proof. apply str_eqb_spec; reflexivity. Qed.

Definition ev (s : str) : dom := Elem s [] [].

(** ** C119: values, CDATA and attributes *)

(** Setting the value changes the first text or appends one, and nothing else. *)
Theorem C119_set_value : forall v k,
  (exists pre t post, k = pre ++ Text t :: post /\ existsb is_text pre = false /\ set_value v k = pre ++ Text v :: post) \/
  (existsb is_text k = false /\ set_value v k = k ++ [Text v]).
Proof.
  intros v k. unfold set_value.
  assert (H : match set_text v k with
              | Some r => exists pre t post, k = pre ++ Text t :: post /\ existsb is_text pre = false /\ r = pre ++ Text v :: post
              | None => existsb is_text k = false end).
  { induction k as [|c k IH]; cbn [set_text]; [reflexivity|]. destruct (is_text c) eqn:E.
    - destruct c as [| t | |]; try discriminate. exists [], t, k. auto.
    - destruct (set_text v k) as [r|].
      + destruct IH as (pre & t & post & -> & E1 & ->). exists (c :: pre), t, post. cbn. rewrite E, E1. auto.
      + cbn [existsb]. rewrite E, IH. reflexivity. }
  destruct (set_text v k) as [r|]; [left|right]; auto.
Qed.

(** The value that was set is read back, for every value, exactly for the nodes without children and those whose first
    child is a text. *)
Theorem C119_value : forall k,
  (forall v, get_value (set_value v k) = (v, NoError)) <-> k = [] \/ exists t r, k = Text t :: r.
Proof.
  intros k. split.
  - intros H. destruct k as [|c k]; [left; reflexivity|right]. destruct (is_text c) eqn:E.
    + destruct c as [|t| |]; try discriminate. exists t, k; reflexivity.
    + exfalso.
      assert (Hd : forall v, get_value (set_value v (c :: k)) = (node_value c, NoError)).
      { intros v. unfold set_value. cbn [set_text]. rewrite E. destruct (set_text v k); reflexivity. }
      pose proof (H (1%N :: node_value c)) as H1. rewrite Hd in H1.
      pose proof (f_equal (fun p => List.length (fst p)) H1) as H2. cbn [fst List.length] in H2. lia.
  - intros [->|(t & r & ->)] v; reflexivity.
Qed.
Example C119_value_case : get_value (set_value T"new" [Text T"old"; ev T"a"]) = (T"new", NoError).
Proof. reflexivity. Qed.

Theorem C119_value_refuted : exists k v, get_value (set_value v k) <> (v, NoError) /\
  In (Text v) (set_value v k) /\ snd (get_value (set_value v k)) = NoError.
Proof.
  exists [Comment T"note"], (T"new"). split; [|split; [cbn; auto|reflexivity]].
  intros H. apply (f_equal (fun p => List.length (fst p))) in H. vm_compute in H. discriminate.
Qed.

Definition cdata_count (k : list dom) : nat := List.length (filter is_cdata k).

Lemma get_cdata_app k v : cdata_count k = 0 -> get_cdata (k ++ [CData v]) = (v, NoError).
Proof.
  unfold cdata_count. induction k as [|c k IH]; [reflexivity|]. destruct c as [n a l|t|t|t]; cbn; intros H; try apply IH; try assumption.
  discriminate.
Qed.
Lemma get_cdata_some k : 0 < cdata_count k -> forall r, get_cdata (k ++ r) = get_cdata k /\ snd (get_cdata k) = NoError.
Proof.
  unfold cdata_count. induction k as [|c k IH]; intros H r; [cbn in H; lia|].
  destruct c as [n a l|t|t|t]; cbn in H |- *; try (apply IH; exact H). auto.
Qed.
Lemma delete_cdata_count k : cdata_count (delete_cdata k) = cdata_count k - 1.
Proof.
  unfold cdata_count. induction k as [|c k IH]; [reflexivity|]. cbn [delete_cdata]. destruct (is_cdata c) eqn:E; cbn [filter]; rewrite E.
  - cbn [List.length]. lia.
  - exact IH.
Qed.

(** CDATA that was set is read back, for every text, exactly for the nodes with at most one CDATA section before. *)
Theorem C119_cdata : forall k,
  (forall v, get_cdata (set_cdata v k) = (v, NoError)) <-> cdata_count k <= 1.
Proof.
  intros k. pose proof (delete_cdata_count k) as D. split.
  - intros H. destruct (Nat.le_gt_cases (cdata_count k) 1) as [L|L]; [exact L|exfalso].
    assert (P : 0 < cdata_count (delete_cdata k)) by lia.
    pose proof (H (1%N :: fst (get_cdata (delete_cdata k)))) as H1. unfold set_cdata in H1.
    rewrite (proj1 (get_cdata_some _ P _)) in H1.
    pose proof (f_equal (fun p => List.length (fst p)) H1) as H2. cbn [fst List.length] in H2. exact (n_Sn _ H2).
  - intros H v. unfold set_cdata. apply get_cdata_app. lia.
Qed.
Example C119_cdata_case : cdata_count [ev T"a"; CData T"x"] <= 1 /\
  get_cdata (set_cdata T"new" [ev T"a"; CData T"x"]) = (T"new", NoError).
Proof. split; [cbn; lia|reflexivity]. Qed.

Theorem C119_cdata_refuted : exists k v, get_cdata (set_cdata v k) = (T"two", NoError) /\ v = T"new" /\
  cdata_count (set_cdata v k) = 2.
Proof. exists [CData T"one"; CData T"two"], (T"new"). repeat split. Qed.

(** The other children are kept in their order. *)
Theorem C119_cdata_keeps : forall v k,
  filter (fun c => negb (is_cdata c)) (set_cdata v k) = filter (fun c => negb (is_cdata c)) k.
Proof.
  intros v k. unfold set_cdata. rewrite filter_app. cbn [filter is_cdata negb]. rewrite app_nil_r.
  induction k as [|c k IH]; [reflexivity|]. cbn [delete_cdata]. destruct (is_cdata c) eqn:E; cbn [filter]; rewrite E; cbn [negb].
  - reflexivity.
  - rewrite IH. reflexivity.
Qed.

Lemma find_change a v b l : find_attr b (change_attr a v l) =
  if str_eqb a b then match find_attr b l with Some _ => Some v | None => None end else find_attr b l.
Proof.
  induction l as [|[n w] l IH]; cbn; [destruct (str_eqb a b); reflexivity|].
  destruct (str_eqb n a) eqn:E; cbn [find_attr].
  - apply str_eqb_spec in E. subst n. destruct (str_eqb a b); reflexivity.
  - rewrite IH. destruct (str_eqb n b) eqn:E1; [|reflexivity]. apply str_eqb_spec in E1. subst n.
    destruct (str_eqb a b) eqn:E2; [|reflexivity]. apply str_eqb_spec in E2. subst. rewrite str_eqb_refl in E. discriminate.
Qed.
Lemma find_app a l m : find_attr a (l ++ m) = match find_attr a l with Some v => Some v | None => find_attr a m end.
Proof. induction l as [|[n w] l IH]; cbn; [reflexivity|]. destruct (str_eqb n a); [reflexivity|exact IH]. Qed.

(** An attribute that was set is read back, and all others are as before. *)
Theorem C119_attribute : forall valid a v l l', set_attr valid a v l = DOk l' ->
  get_attr a l' = (v, NoError) /\ forall b, b <> a -> get_attr b l' = get_attr b l.
Proof.
  intros valid a v l l' H. unfold set_attr in H. unfold get_attr. destruct (find_attr a l) as [w|] eqn:E.
  - injection H as <-. split.
    + rewrite find_change, str_eqb_refl, E. reflexivity.
    + intros b Hb. rewrite find_change. destruct (str_eqb a b) eqn:E1; [|reflexivity]. apply str_eqb_spec in E1. congruence.
  - destruct (valid a); [|discriminate]. injection H as <-. split.
    + rewrite find_app, E. cbn. rewrite str_eqb_refl. reflexivity.
    + intros b Hb. rewrite find_app. cbn. destruct (str_eqb a b) eqn:E1; [apply str_eqb_spec in E1; congruence|].
      destruct (find_attr b l); reflexivity.
Qed.
Theorem C119_attribute_set : forall valid a v l, valid a = true -> exists l', set_attr valid a v l = DOk l'.
Proof. intros valid a v l H. unfold set_attr. rewrite H. destruct (find_attr a l); eexists; reflexivity. Qed.
Example C119_attribute_case : set_attr (fun _ => true) T"b" T"2" [(T"a", T"1")] = DOk [(T"a", T"1"); (T"b", T"2")].
Proof. reflexivity. Qed.

(** A deleted attribute is gone, if the names are distinct as in every document; the others are as before. *)
Theorem C119_delete_attribute : forall a l, NoDup (attr_names l) ->
  snd (get_attr a (fst (delete_attr a l))) = NoAttribute /\
  (forall b, b <> a -> get_attr b (fst (delete_attr a l)) = get_attr b l) /\
  (snd (delete_attr a l) = NoError <-> In a (attr_names l)).
Proof.
  intros a l Nd. unfold delete_attr.
  assert (R1 : find_attr a (remove_attr a l) = None).
  { induction l as [|[n w] l IH]; [reflexivity|]. cbn in Nd. inversion Nd as [|? ? Hn Nd']; subst. cbn [remove_attr].
    destruct (str_eqb n a) eqn:E.
    - apply str_eqb_spec in E. subst n. clear -Hn. induction l as [|[m w] l IH]; [reflexivity|]. cbn in Hn |- *.
      destruct (str_eqb m a) eqn:E; [apply str_eqb_spec in E; tauto|]. apply IH. tauto.
    - cbn [find_attr]. rewrite E. apply IH. exact Nd'. }
  assert (R2 : forall b, b <> a -> find_attr b (remove_attr a l) = find_attr b l).
  { clear. intros b Hb. induction l as [|[n w] l IH]; [reflexivity|]. cbn [remove_attr find_attr]. destruct (str_eqb n a) eqn:E.
    - apply str_eqb_spec in E. subst n. destruct (str_eqb a b) eqn:E1; [apply str_eqb_spec in E1; congruence|reflexivity].
    - cbn [find_attr]. rewrite IH. reflexivity. }
  assert (R3 : find_attr a l <> None <-> In a (attr_names l)).
  { clear. induction l as [|[n w] l IH]; cbn; [split; [intros H; apply H; reflexivity|tauto]|].
    destruct (str_eqb n a) eqn:E; [apply str_eqb_spec in E; subst; split; [auto|discriminate]|].
    rewrite IH. split; [auto|]. intros [->|H]; [rewrite str_eqb_refl in E; discriminate|exact H]. }
  destruct (find_attr a l) as [v|] eqn:E; cbn [fst snd].
  - split; [unfold get_attr; rewrite R1; reflexivity|]. split; [intros b Hb; unfold get_attr; rewrite R2 by exact Hb; reflexivity|].
    split; [intros _; apply R3; discriminate|reflexivity].
  - split; [unfold get_attr; rewrite E; reflexivity|]. split; [reflexivity|].
    split; [discriminate|]. intros H. apply R3 in H. contradiction.
Qed.
Example C119_delete_attribute_case : delete_attr T"a" [(T"a", T"1"); (T"b", T"2")] = ([(T"b", T"2")], NoError).
Proof. reflexivity. Qed.

(** An attribute with a name that XML does not allow ends in an exception, not in an error. *)
Theorem C119_attribute_refuted : exists valid a v l, valid a = false /\ set_attr valid a v l = DThrow.
Proof. exists (fun s => match s with [] => false | _ => true end), [], (T"1"), []. split; reflexivity. Qed.

(** ** C120: going through the children *)

(** The numbers of the children that are elements. *)
Definition elem_at (k : list dom) (p : nat) : Prop := exists c, nth_error k p = Some c /\ is_elem c = true.
Definition elem_positions (k : list dom) : list nat :=
  filter (fun p => match nth_error k p with Some c => is_elem c | None => false end) (seq 0 (List.length k)).

Lemma next_in_spec k base :
  match next_in k base with
  | Some p => base <= p /\ elem_at k (p - base) /\ forall q, q < p - base -> ~ elem_at k q
  | None => forall q, ~ elem_at k q
  end.
Proof.
  revert base; induction k as [|c k IH]; intros base; cbn [next_in].
  - intros q (c & H & _). destruct q; discriminate.
  - destruct (is_elem c) eqn:E.
    + split; [lia|]. rewrite Nat.sub_diag. split; [exists c; auto|]. intros q H; lia.
    + specialize (IH (S base)). destruct (next_in k (S base)) as [p|].
      * destruct IH as (L & (d & Hd & Ed) & Hn). split; [lia|].
        assert (Hp : p - base = S (p - S base)) by lia.
        split; [exists d; rewrite Hp; cbn; auto|].
        intros [|q] Hq (d' & Hd' & Ed').
        -- cbn in Hd'. injection Hd' as <-. congruence.
        -- cbn in Hd'. apply (Hn q); [lia|]. exists d'; auto.
      * intros [|q] (d' & Hd' & Ed'); cbn in Hd'.
        -- injection Hd' as <-. congruence.
        -- apply (IH q). exists d'; auto.
Qed.

Lemma nth_skipn {A} n (l : list A) q : nth_error (skipn n l) q = nth_error l (n + q).
Proof. revert l; induction n as [|n IH]; intros l; [reflexivity|]. destruct l; cbn; [destruct q; reflexivity|apply IH]. Qed.

(** First and next: the first element, and the nearest element after the given one. *)
Theorem C120_forward : forall k,
  match first_child k with
  | Some p => elem_at k p /\ forall q, q < p -> ~ elem_at k q
  | None => forall q, ~ elem_at k q
  end /\
  forall pos, match next_sibling k pos with
  | Some p => pos < p /\ elem_at k p /\ forall q, pos < q < p -> ~ elem_at k q
  | None => forall q, pos < q -> ~ elem_at k q
  end.
Proof.
  intros k. split.
  - pose proof (next_in_spec k 0) as H. unfold first_child. destruct (next_in k 0) as [p|]; [|exact H].
    destruct H as (_ & H1 & H2). rewrite Nat.sub_0_r in *. auto.
  - intros pos. pose proof (next_in_spec (skipn (S pos) k) (S pos)) as H. unfold next_sibling.
    assert (A : forall q, elem_at (skipn (S pos) k) q <-> elem_at k (S pos + q)).
    { intros q. unfold elem_at. rewrite nth_skipn. reflexivity. }
    destruct (next_in _ (S pos)) as [p|].
    + destruct H as (L & H1 & H2). split; [lia|]. split; [apply A in H1; replace (S pos + (p - S pos)) with p in H1 by lia; exact H1|].
      intros q Hq He. apply (H2 (q - S pos)); [lia|]. apply A. replace (S pos + (q - S pos)) with q by lia. exact He.
    + intros q Hq He. apply (H (q - S pos)). apply A. replace (S pos + (q - S pos)) with q by lia. exact He.
Qed.

(** Last and previous. *)
Theorem C120_backward : forall k,
  match last_child k with
  | Some p => elem_at k p /\ forall q, p < q -> ~ elem_at k q
  | None => forall q, ~ elem_at k q
  end /\
  forall pos, match prev_sibling k pos with
  | Some p => p < pos /\ elem_at k p /\ forall q, p < q < pos -> ~ elem_at k q
  | None => forall q, q < pos -> ~ elem_at k q
  end.
Proof.
  intros k.
  assert (H : forall n, match prev_from k n with
    | Some p => p < n /\ elem_at k p /\ forall q, p < q < n -> ~ elem_at k q
    | None => forall q, q < n -> ~ elem_at k q end).
  { induction n as [|n IH]; cbn [prev_from]; [intros q Hq; lia|].
    destruct (nth_error k n) as [c|] eqn:En.
    - destruct (is_elem c) eqn:E.
      + split; [lia|]. split; [exists c; auto|]. intros q Hq; lia.
      + assert (Hn : ~ elem_at k n) by (intros (d & Hd & Ed); congruence).
        destruct (prev_from k n) as [p|].
        * destruct IH as (L & H1 & H2). split; [lia|]. split; [exact H1|]. intros q Hq. destruct (Nat.eq_dec q n) as [->|]; [exact Hn|]. apply H2; lia.
        * intros q Hq. destruct (Nat.eq_dec q n) as [->|]; [exact Hn|]. apply IH; lia.
    - assert (Hn : ~ elem_at k n) by (intros (d & Hd & Ed); congruence).
      destruct (prev_from k n) as [p|].
      + destruct IH as (L & H1 & H2). split; [lia|]. split; [exact H1|]. intros q Hq. destruct (Nat.eq_dec q n) as [->|]; [exact Hn|]. apply H2; lia.
      + intros q Hq. destruct (Nat.eq_dec q n) as [->|]; [exact Hn|]. apply IH; lia. }
  split; [|exact H]. unfold last_child. specialize (H (List.length k)).
  assert (B : forall q, List.length k <= q -> ~ elem_at k q) by (intros q Hq (d & Hd & _); apply nth_error_None in Hq; congruence).
  destruct (prev_from k (List.length k)) as [p|].
  - destruct H as (L & H1 & H2). split; [exact H1|]. intros q Hq. destruct (Nat.le_gt_cases (List.length k) q); [apply B; assumption|apply H2; lia].
  - intros q. destruct (Nat.le_gt_cases (List.length k) q); [apply B; assumption|apply H; lia].
Qed.

(** The loops of a caller over all children. *)
Fixpoint walk (next : nat -> option nat) (p : option nat) (fuel : nat) : option (list nat) :=
  match p with
  | None => Some []
  | Some q => match fuel with
              | O => None
              | S f => match walk next (next q) f with Some r => Some (q :: r) | None => None end
              end
  end.

Lemma walk_next k n : forall base, List.length k - base <= n ->
  walk (next_sibling k) (next_in (skipn base k) base) n =
  Some (filter (fun p => match nth_error k p with Some c => is_elem c | None => false end) (seq base (List.length k - base))).
Proof.
  induction n as [|n IH]; intros base L.
  - rewrite skipn_all2 by lia. cbn [next_in walk]. replace (List.length k - base) with 0 by lia. reflexivity.
  - destruct (List.length k - base) as [|m] eqn:Em.
    + rewrite skipn_all2 by lia. reflexivity.
    + assert (exists c, nth_error k base = Some c) as [c Ec].
      { destruct (nth_error k base) eqn:E; [eexists; reflexivity|]. apply nth_error_None in E. lia. }
      assert (Sk : skipn base k = c :: skipn (S base) k).
      { clear -Ec. revert k Ec; induction base as [|b IHb]; intros [|x k] E; cbn in E; try discriminate.
        - injection E as ->. reflexivity.
        - apply IHb. exact E. }
      rewrite Sk. cbn [next_in seq filter]. rewrite Ec.
      assert (Hm : m = List.length k - S base) by lia.
      destruct (is_elem c).
      * cbn [walk]. unfold next_sibling at 2. rewrite (IH (S base)) by lia. rewrite Hm. reflexivity.
      * assert (W : forall f, walk (next_sibling k) (next_in (skipn (S base) k) (S base)) f = None \/
                     walk (next_sibling k) (next_in (skipn (S base) k) (S base)) (S f) = walk (next_sibling k) (next_in (skipn (S base) k) (S base)) f).
        { assert (G : forall f p, walk (next_sibling k) p f = None \/ walk (next_sibling k) p (S f) = walk (next_sibling k) p f).
          { induction f as [|f IHf]; intros [q|]; cbn [walk]; auto.
            destruct (IHf (next_sibling k q)) as [E|E]; [rewrite E; left; reflexivity|]. right. cbn [walk] in E. rewrite E. reflexivity. }
          intros f. apply G. }
        pose proof (IH (S base) ltac:(lia)) as I1. destruct (W n) as [E|E]; [congruence|]. rewrite E, I1, Hm. reflexivity.
Qed.

(** Going from the first child to the next one gives every element once, in the order of the document. *)
Theorem C120_loop : forall k, walk (next_sibling k) (first_child k) (List.length k) = Some (elem_positions k).
Proof. intros k. pose proof (walk_next k (List.length k) 0) as H. cbn [skipn] in H. rewrite Nat.sub_0_r in H. apply H. lia. Qed.
Example C120_loop_case : walk (next_sibling [Text T" "; ev T"a"; Comment T"x"; ev T"b"]) (first_child [Text T" "; ev T"a"; Comment T"x"; ev T"b"]) 4 = Some [1; 3].
Proof. reflexivity. Qed.

(** Going backwards gives them in the opposite order. *)
Theorem C120_loop_back : forall k, walk (prev_sibling k) (last_child k) (List.length k) = Some (rev (elem_positions k)).
Proof.
  intros k. unfold last_child, elem_positions.
  assert (G : forall f p q, walk (prev_sibling k) p f = Some q -> walk (prev_sibling k) p (S f) = Some q).
  { induction f as [|f IHf]; intros [q|] r; cbn [walk]; intros H; try discriminate; auto.
    destruct (walk (prev_sibling k) (prev_sibling k q) f) as [r'|] eqn:E; [|discriminate].
    apply IHf in E. cbn [walk] in E. rewrite E. exact H. }
  assert (H : forall n, n <= List.length k -> walk (prev_sibling k) (prev_from k n) n =
     Some (rev (filter (fun p => match nth_error k p with Some c => is_elem c | None => false end) (seq 0 n)))).
  { induction n as [|n IH]; intros L; [reflexivity|]. specialize (IH ltac:(lia)).
    rewrite seq_S, filter_app, rev_app_distr. cbn [plus filter prev_from].
    destruct (nth_error k n) as [c|] eqn:E; [destruct (is_elem c)|].
    - cbn [walk rev app]. unfold prev_sibling at 2. rewrite IH. reflexivity.
    - cbn [rev app]. apply G. exact IH.
    - cbn [rev app]. apply G. exact IH. }
  apply H. lia.
Qed.

(** The children with a name, and the one asked for by name and index. *)
Definition named (name : str) (c : dom) : bool := match c with Elem n _ _ => str_eqb name n | _ => false end.
Definition named_positions (name : str) (k : list dom) (base : nat) : list nat :=
  map fst (filter (fun pc => named name (snd pc)) (combine (seq base (List.length k)) k)).

Lemma named_is name c : is_elem c && str_eqb name (name_of c) = named name c.
Proof. destruct c; reflexivity. Qed.

Lemma child_loop_spec name idx k : forall base sub, sub <= idx ->
  child_loop name idx k base sub =
  match nth_error (named_positions name k base) (idx - sub) with
  | Some p => inl p
  | None => inr (sub + List.length (named_positions name k base))
  end.
Proof.
  induction k as [|c k IH]; intros base sub L; cbn [child_loop].
  - unfold named_positions. cbn. destruct (idx - sub); cbn; f_equal; lia.
  - rewrite named_is. unfold named_positions. cbn [List.length seq combine filter]. cbn [snd].
    destruct (named name c); cbn [map fst].
    + destruct (Nat.eqb_spec sub idx) as [->|Hn].
      * rewrite Nat.sub_diag. reflexivity.
      * rewrite IH by lia. replace (idx - sub) with (S (idx - S sub)) by lia. cbn [nth_error List.length].
        fold (named_positions name k (S base)). destruct (nth_error _ (idx - S sub)); [reflexivity|]. f_equal. lia.
    + apply IH. exact L.
Qed.

(** [GetChildNode]: the child is the one with that index among the children of that name; the error tells whether
    there are any. *)
Theorem C120_child : forall valid name idx k, valid name = true ->
  get_child valid name idx k =
  match nth_error (named_positions name k 0) idx with
  | Some p => inl p
  | None => inr (match named_positions name k 0 with [] => ElementNotFound | _ => BadArrayIndex end)
  end.
Proof.
  intros valid name idx k H. unfold get_child. rewrite H, child_loop_spec by lia. rewrite Nat.sub_0_r.
  destruct (nth_error _ idx); [reflexivity|]. destruct (named_positions name k 0); reflexivity.
Qed.
Example C120_child_case : get_child (fun _ => true) T"a" 1 [ev T"a"; Text T" "; ev T"b"; ev T"a"] = inl 3.
Proof. reflexivity. Qed.

Lemma find_loop_spec name k base : find_loop name k base = hd_error (named_positions name k base).
Proof.
  revert base; induction k as [|c k IH]; intros base; cbn [find_loop]; [reflexivity|]. rewrite named_is.
  unfold named_positions. cbn [List.length seq combine filter snd]. destruct (named name c); [reflexivity|]. apply IH.
Qed.

(** [FindChildNode] is the first of them. *)
Theorem C120_find : forall name k,
  find_child name k = match named_positions name k 0 with p :: _ => inl p | [] => inr ElementNotFound end.
Proof. intros name k. unfold find_child. rewrite find_loop_spec. destruct (named_positions name k 0); reflexivity. Qed.

(** The child with an attribute is the first one with that name and value. *)
Definition has_attr (a v : str) (c : dom) : bool := match find_attr a (attrs_of c) with Some w => str_eqb v w | None => false end.
Theorem C120_child_attribute : forall valid name a v k, valid name = true ->
  match get_child_attr valid name a v k with
  | inl p => (exists c, nth_error k p = Some c /\ named name c = true /\ has_attr a v c = true) /\
             forall q c, q < p -> nth_error k q = Some c -> named name c && has_attr a v c = false
  | inr e => e = ElementNotFound /\ forall q c, nth_error k q = Some c -> named name c && has_attr a v c = false
  end.
Proof.
  intros valid name a v k H. unfold get_child_attr. rewrite H.
  assert (L : forall base, match child_attr_loop name a v k base with
    | Some p => base <= p /\ (exists c, nth_error k (p - base) = Some c /\ named name c = true /\ has_attr a v c = true) /\
                forall q c, q < p - base -> nth_error k q = Some c -> named name c && has_attr a v c = false
    | None => forall q c, nth_error k q = Some c -> named name c && has_attr a v c = false end).
  { clear H. induction k as [|c k IH]; intros base; cbn [child_attr_loop].
    - intros q c Hq. destruct q; discriminate.
    - rewrite named_is. fold (has_attr a v c). destruct (named name c && has_attr a v c) eqn:E.
      + split; [lia|]. rewrite Nat.sub_diag. apply andb_prop in E as [E1 E2]. split; [exists c; auto|]. intros q d Hq; lia.
      + specialize (IH (S base)). destruct (child_attr_loop name a v k (S base)) as [p|].
        * destruct IH as (B & (d & Hd & Ed) & Hn). split; [lia|]. replace (p - base) with (S (p - S base)) by lia.
          split; [exists d; auto|]. intros [|q] d' Hq Hd'; cbn in Hd'; [injection Hd' as <-; exact E|]. apply (Hn q); [lia|exact Hd'].
        * intros [|q] d' Hd'; cbn in Hd'; [injection Hd' as <-; exact E|]. apply (IH q). exact Hd'. }
  specialize (L 0). destruct (child_attr_loop name a v k 0) as [p|].
  - destruct L as (_ & L1 & L2). rewrite Nat.sub_0_r in *. auto.
  - auto.
Qed.
Example C120_child_attribute_case :
  get_child_attr (fun _ => true) T"a" T"x" T"2" [Elem T"a" [(T"x", T"1")] []; Elem T"a" [(T"x", T"2")] []] = inl 1.
Proof. reflexivity. Qed.

(** A name that XML does not allow is not reported as such. *)
Theorem C120_bad_name_refuted : exists valid name idx k, valid name = false /\ get_child valid name idx k = inr ElementNotFound /\
  ElementNotFound <> BadName.
Proof. exists (fun _ => false), (T"<"), 0, []. split; [reflexivity|]. split; [reflexivity|]. discriminate. Qed.

(** ** C121: adding and deleting children *)

Lemma insert_pos_spec k : forall base cnt idx, cnt <= idx ->
  match insert_pos k base cnt idx with
  | Some p => base <= p /\ List.length (filter counts_for_index (firstn (p - base) k)) = idx - cnt /\ p - base < List.length k /\
              exists c, nth_error k (p - base) = Some c /\ counts_for_index c = true
  | None => List.length (filter counts_for_index k) <= idx - cnt
  end.
Proof.
  induction k as [|c k IH]; intros base cnt idx L; cbn [insert_pos]; [cbn; lia|].
  destruct (counts_for_index c) eqn:E; cbn [negb].
  - destruct (Nat.eqb_spec cnt idx) as [->|Hn].
    + rewrite !Nat.sub_diag. cbn. split; [lia|]. split; [reflexivity|]. split; [lia|]. exists c; auto.
    + specialize (IH (S base) (S cnt) idx ltac:(lia)). destruct (insert_pos k (S base) (S cnt) idx) as [p|].
      * destruct IH as (B & C & D & d & Hd). split; [lia|]. replace (p - base) with (S (p - S base)) by lia.
        cbn [firstn filter nth_error]. rewrite E. cbn [List.length]. split; [lia|]. split; [lia|]. exists d; exact Hd.
      * cbn [filter]. rewrite E. cbn [List.length]. lia.
  - specialize (IH (S base) cnt idx L). destruct (insert_pos k (S base) cnt idx) as [p|].
    + destruct IH as (B & C & D & d & Hd). split; [lia|]. replace (p - base) with (S (p - S base)) by lia.
      cbn [firstn filter nth_error]. rewrite E. cbn [List.length]. split; [exact C|]. split; [lia|]. exists d; exact Hd.
    + cbn [filter]. rewrite E. exact IH.
Qed.

(** Inserting into the children at some place, such that the new one has the index asked for. *)
Definition counted (c : dom) : bool := is_elem c || is_cdata c.
Lemma counts_counted k : filter counts_for_index k = filter counted k.
Proof. apply filter_ext. intros c. destruct c; reflexivity. Qed.
Definition placed (c : dom) (idx : nat) (k r : list dom) (p : nat) : Prop :=
  exists pre post, k = pre ++ post /\ r = pre ++ c :: post /\ p = List.length pre /\
    List.length (filter counted pre) = Nat.min idx (List.length (filter counted k)).

(** [CreateChildNodeBeforeIndex]: a new empty element with the index asked for (at the end if there are not so many), the
    others as before. *)
Theorem C121_create : forall valid name i k, valid name = true ->
  exists r p, create_before valid name (Some i) k = inl (r, p) /\ placed (Elem name [] []) i k r p.
Proof.
  unfold placed. setoid_rewrite <- counts_counted.
  intros valid name i k H. unfold create_before. rewrite H. pose proof (insert_pos_spec k 0 0 i ltac:(lia)) as Hp.
  destruct (insert_pos k 0 0 i) as [p|].
  - destruct Hp as (_ & C & D & _). rewrite Nat.sub_0_r in *. exists (insert_at p (Elem name [] []) k), p. split; [reflexivity|].
    exists (firstn p k), (skipn p k). split; [symmetry; apply firstn_skipn|]. split; [reflexivity|].
    split; [rewrite firstn_length; lia|]. rewrite <- (firstn_skipn p k) at 2. rewrite filter_app, app_length. lia.
  - exists (k ++ [Elem name [] []]), (List.length k). split; [reflexivity|]. exists k, []. rewrite app_nil_r.
    split; [reflexivity|]. split; [reflexivity|]. split; [reflexivity|]. lia.
Qed.
Example C121_create_case : create_before (fun _ => true) T"n" (Some 1) [Text T" "; ev T"a"; Text T" "; ev T"b"] =
  inl ([Text T" "; ev T"a"; Text T" "; ev T"n"; ev T"b"], 3).
Proof. reflexivity. Qed.

(** [CreateChildNode] appends. *)
Theorem C121_append : forall valid name k,
  create_before valid name None k = if valid name then inl (k ++ [Elem name [] []], List.length k) else inr BadName.
Proof. reflexivity. Qed.

Lemma copy_loop_past c idx : forall n pos cnt k, idx < cnt -> copy_loop n pos cnt idx c k = k.
Proof.
  induction n as [|n IH]; intros pos cnt k L; cbn [copy_loop]; [reflexivity|].
  destruct (nth_error k pos) as [d|]; [|reflexivity]. destruct (counts_for_index d); cbn [negb].
  - rewrite (proj2 (Nat.eqb_neq cnt idx)) by lia. apply IH. lia.
  - apply IH. exact L.
Qed.

Lemma copy_loop_spec c idx k : forall n pos cnt, cnt <= idx -> n + pos = List.length k ->
  copy_loop n pos cnt idx c k = match insert_pos (skipn pos k) pos cnt idx with Some p => insert_at p c k | None => k end.
Proof.
  induction n as [|n IH]; intros pos cnt L E.
  - rewrite skipn_all2 by lia. reflexivity.
  - cbn [copy_loop]. destruct (nth_error k pos) as [d|] eqn:En; [|apply nth_error_None in En; lia].
    assert (Sk : skipn pos k = d :: skipn (S pos) k).
    { clear -En. revert k En; induction pos as [|b IHb]; intros [|x k] E; cbn in E; try discriminate.
      - injection E as ->. reflexivity.
      - apply IHb. exact E. }
    rewrite Sk. cbn [insert_pos]. destruct (counts_for_index d); cbn [negb].
    + destruct (Nat.eqb_spec cnt idx) as [->|Hn].
      * apply copy_loop_past. lia.
      * apply IH; lia.
    + apply IH; lia.
Qed.

(** [AddCopyOfExistingNodeBeforeIndex] does the same for an index below the number of children that count, and for an
    index that is at least the number of all children. *)
Theorem C121_copy_partial : forall c idx k,
  idx < List.length (filter counted k) \/ List.length k <= idx ->
  exists p, placed c idx k (copy_before c idx k) p.
Proof.
  unfold placed. setoid_rewrite <- counts_counted.
  intros c idx k H.
  assert (F : List.length (filter counts_for_index k) <= List.length k).
  { clear. induction k as [|d k IH]; cbn; [lia|]. destruct (counts_for_index d); cbn; lia. }
  unfold copy_before. destruct (Nat.ltb_spec idx (List.length k)) as [L|L].
  - destruct H as [H|H]; [|lia]. rewrite copy_loop_spec by lia. cbn [skipn].
    pose proof (insert_pos_spec k 0 0 idx ltac:(lia)) as Hp. destruct (insert_pos k 0 0 idx) as [p|]; [|lia].
    destruct Hp as (_ & C & D & _). rewrite Nat.sub_0_r in *. exists p, (firstn p k), (skipn p k).
    split; [symmetry; apply firstn_skipn|]. split; [reflexivity|]. split; [rewrite firstn_length; lia|]. lia.
  - exists (List.length k), k, []. rewrite app_nil_r. split; [reflexivity|]. split; [reflexivity|]. split; [reflexivity|]. lia.
Qed.
Example C121_copy_case : copy_before (ev T"n") 1 [Text T" "; ev T"a"; Text T" "; ev T"b"] = [Text T" "; ev T"a"; Text T" "; ev T"n"; ev T"b"].
Proof. reflexivity. Qed.

(** In between the copy is not added at all. *)
Theorem C121_copy_lost : forall c idx k, List.length (filter counted k) <= idx < List.length k -> copy_before c idx k = k.
Proof.
  setoid_rewrite <- counts_counted.
  intros c idx k [H1 H2]. unfold copy_before. rewrite (proj2 (Nat.ltb_lt _ _)) by exact H2. rewrite copy_loop_spec by lia. cbn [skipn].
  pose proof (insert_pos_spec k 0 0 idx ltac:(lia)) as Hp. destruct (insert_pos k 0 0 idx) as [p|]; [|reflexivity].
  destruct Hp as (_ & C & D & d & Hd & Ed). rewrite Nat.sub_0_r in *. exfalso.
  rewrite <- (firstn_skipn p k) in H1. rewrite filter_app, app_length in H1.
  assert (exists r, skipn p k = d :: r) as [r Er].
  { clear -Hd. revert k Hd; induction p as [|b IHb]; intros [|x k] E; cbn in E; try discriminate.
    - injection E as ->. eexists; reflexivity.
    - apply IHb. exact E. }
  rewrite Er in H1. cbn [filter] in H1. rewrite Ed in H1. cbn [List.length] in H1. lia.
Qed.
Theorem C121_copy_refuted : exists c idx k, copy_before c idx k = k /\ ~ In c k /\
  create_before (fun _ => true) T"n" (Some idx) k = inl (k ++ [c], List.length k).
Proof.
  exists (ev T"n"), 1, [Text T" "; ev T"a"; Text T" "]. split; [reflexivity|]. split; [|reflexivity].
  cbn. intros [H|[H|[H|[]]]]; try discriminate H.
Qed.

(** [DeleteNode] removes the node, and the text that follows it. *)
Theorem C121_delete : forall pre c post,
  delete_node (List.length pre) (pre ++ c :: post) =
  pre ++ match post with Text t :: r => r | r => r end.
Proof.
  intros pre c post. unfold delete_node. rewrite firstn_app, firstn_all, Nat.sub_diag. cbn [firstn]. rewrite app_nil_r.
  replace (skipn (S (List.length pre)) (pre ++ c :: post)) with post.
  - destruct post as [|d r]; [reflexivity|]. destruct d; reflexivity.
  - clear. induction pre as [|x pre IH]; [reflexivity|]. cbn [app List.length]. exact IH.
Qed.
(** The elements that remain are all the others. *)
Theorem C121_delete_elements : forall pre c post,
  filter is_elem (delete_node (List.length pre) (pre ++ c :: post)) = filter is_elem pre ++ filter is_elem post.
Proof. intros. rewrite C121_delete, filter_app. f_equal. destruct post as [|[| | |] r]; reflexivity. Qed.
(** But text of the document that happens to follow is lost. *)
Theorem C121_delete_refuted : exists k p t, In (Text t) k /\ nth_error k p <> Some (Text t) /\ ~ In (Text t) (delete_node p k).
Proof.
  exists [Text T"one "; ev T"br"; Text T"two"], 1, (T"two"). split; [cbn; auto|]. split; [discriminate|].
  cbn. intros [H|[]]. discriminate H.
Qed.

(** ** C122: values by path *)

(** The names of a path and the path. *)
Fixpoint join (ns : list str) : str := match ns with [] => [] | [n] => n | n :: ns' => n ++ 47%N :: join ns' end.

(** Names that are only names: XML allows them, and they have none of the characters with a meaning. *)
Definition plain (valid : str -> bool) (n : str) : Prop :=
  n <> [] /\ valid n = true /\ starts 36 n = false /\ ~ In 47%N n /\ ~ In 39%N n /\ ~ In 91%N n.

Lemma tokenize_run s : ~ In 47%N s -> ~ In 39%N s -> forall cur rest,
  tokenize_loop 47 39 (s ++ rest) cur false = tokenize_loop 47 39 rest (rev s ++ cur) false.
Proof.
  induction s as [|x s IH]; intros H1 H2 cur rest; [reflexivity|]. cbn [app tokenize_loop].
  destruct (N.eqb_spec x 39) as [->|_]; [exfalso; apply H2; left; reflexivity|].
  destruct (N.eqb_spec x 47) as [->|_]; [exfalso; apply H1; left; reflexivity|]. cbn [negb andb].
  rewrite IH; [|intros Hi; apply H1; right; exact Hi|intros Hi; apply H2; right; exact Hi].
  cbn [rev]. rewrite <- app_assoc. reflexivity.
Qed.

Definition token (n : str) : Prop := n <> [] /\ ~ In 47%N n /\ ~ In 39%N n.
Lemma plain_token valid n : plain valid n -> token n.
Proof. intros (H1 & _ & _ & H2 & H3 & _). split; [exact H1|split; assumption]. Qed.

Lemma tokenize_join ns : Forall token ns -> tokenize 47 (join ns) = ns.
Proof.
  unfold tokenize. induction ns as [|n ns IH]; intros H; [reflexivity|].
  inversion H as [|? ? Hn Hns]; subst. destruct Hn as (Hne & H1 & H2).
  destruct ns as [|m ns].
  - cbn [join]. rewrite <- (app_nil_r n) at 1. rewrite tokenize_run by assumption. rewrite app_nil_r. cbn [tokenize_loop].
    destruct (rev n) as [|x r] eqn:E.
    + exfalso. apply Hne. rewrite <- (rev_involutive n), E. reflexivity.
    + rewrite <- E, rev_involutive. reflexivity.
  - cbn [join]. rewrite tokenize_run by assumption. cbn [tokenize_loop]. rewrite app_nil_r, rev_involutive.
    change (if N.eqb 47 39 then negb false else false) with false. cbn [negb andb]. rewrite N.eqb_refl. f_equal. apply IH. exact Hns.
Qed.

Lemma find_char_none ch s pos : ~ In ch s -> find_char ch s pos = None.
Proof.
  revert pos; induction s as [|x s IH]; intros pos H; [reflexivity|]. cbn [find_char].
  destruct (N.eqb_spec x ch) as [->|_]; [exfalso; apply H; left; reflexivity|]. apply IH. intros Hi; apply H; right; exact Hi.
Qed.
Lemma parse_plain valid n : plain valid n -> parse_token n = Child n 0.
Proof.
  intros (_ & _ & H & _ & _ & Hb). unfold parse_token. rewrite H, (find_char_none 91 n 0 Hb). reflexivity.
Qed.

(** What a path means: the first child with the first name, and so on. *)
Fixpoint look (ns : list str) (n : dom) : option dom :=
  match ns with
  | [] => Some n
  | m :: ns' => match find (named m) (kids_of n) with Some c => look ns' c | None => None end
  end.

(** What writing does: the nodes of the path that are missing are appended, and the last one is changed. *)
Fixpoint put_first (p : dom -> bool) (f : dom -> dom) (k : list dom) : option (list dom) :=
  match k with
  | [] => None
  | c :: k' => if p c then Some (f c :: k') else match put_first p f k' with Some r => Some (c :: r) | None => None end
  end.
Fixpoint put (g : dom -> dom) (ns : list str) (n : dom) : dom :=
  match ns with
  | [] => g n
  | m :: ns' => with_kids n (match put_first (named m) (put g ns') (kids_of n) with
                             | Some k => k
                             | None => kids_of n ++ [put g ns' (Elem m [] [])]
                             end)
  end.
Definition valued (v : str) (n : dom) : dom := with_kids n (set_value v (kids_of n)).
(** An attribute set: the first one of that name, or a new one. *)
Definition attributed (a v : str) (n : dom) : dom :=
  with_attrs n (match find_attr a (attrs_of n) with
                | Some _ => change_attr a v (attrs_of n)
                | None => attrs_of n ++ [(a, v)]
                end).

Lemma find_loop_find m k : forall base,
  match find_loop m k base with
  | Some p => base <= p /\ exists c, nth_error k (p - base) = Some c /\ find (named m) k = Some c /\ named m c = true /\
              forall f, put_first (named m) f k = Some (change_nth (p - base) f k)
  | None => find (named m) k = None /\ forall f, put_first (named m) f k = None
  end.
Proof.
  induction k as [|c k IH]; intros base; cbn [find_loop]; [split; reflexivity|]. rewrite named_is. cbn [find put_first].
  destruct (named m c) eqn:E.
  - split; [lia|]. rewrite Nat.sub_diag. exists c. auto.
  - specialize (IH (S base)). destruct (find_loop m k (S base)) as [p|].
    + destruct IH as (L & d & H1 & H2 & H3 & H4). split; [lia|]. replace (p - base) with (S (p - S base)) by lia.
      exists d. split; [exact H1|]. split; [exact H2|]. split; [exact H3|]. intros f. rewrite H4. reflexivity.
    + destruct IH as [H1 H2]. split; [exact H1|]. intros f. rewrite H2. reflexivity.
Qed.

Lemma child_loop_0 m k : forall base, child_loop m 0 k base 0 = match find_loop m k base with Some p => inl p | None => inr 0 end.
Proof.
  induction k as [|c k IH]; intros base; cbn [child_loop find_loop]; [reflexivity|].
  destruct (is_elem c && str_eqb m (name_of c)); [reflexivity|]. apply IH.
Qed.

(** Nodes and changes along a path of numbers. *)
Lemma kids_with n k : is_elem n = true -> kids_of (with_kids n k) = k.
Proof. destruct n; [reflexivity|discriminate..]. Qed.
Lemma with_with n k l : with_kids (with_kids n k) l = with_kids n l.
Proof. destruct n; reflexivity. Qed.
Lemma is_elem_with n k : is_elem (with_kids n k) = is_elem n.
Proof. destruct n; reflexivity. Qed.
Lemma kids_elem n i c : nth_error (kids_of n) i = Some c -> is_elem n = true.
Proof. destruct n; [reflexivity|..]; destruct i; discriminate. Qed.

Lemma node_at_app doc p q : node_at doc (p ++ q) = match node_at doc p with Some n => node_at n q | None => None end.
Proof.
  revert doc; induction p as [|i p IH]; intros doc; [reflexivity|]. cbn [app node_at].
  destruct (nth_error (kids_of doc) i); [apply IH|reflexivity].
Qed.

Lemma nth_change i f l : nth_error (change_nth i f l) i = match nth_error l i with Some c => Some (f c) | None => None end.
Proof. revert i; induction l as [|c l IH]; intros [|i]; cbn; auto. Qed.

Lemma change_nth_ext i f g l : (forall c, nth_error l i = Some c -> f c = g c) -> change_nth i f l = change_nth i g l.
Proof.
  revert i; induction l as [|c l IH]; intros [|i] H; cbn; try reflexivity.
  - rewrite (H c eq_refl). reflexivity.
  - f_equal. apply IH. exact H.
Qed.
Lemma change_nth_twice i f g l : change_nth i g (change_nth i f l) = change_nth i (fun c => g (f c)) l.
Proof. revert i; induction l as [|c l IH]; intros [|i]; cbn; try reflexivity. f_equal. apply IH. Qed.

Lemma node_at_change doc p f n : node_at doc p = Some n -> node_at (change_at doc p f) p = Some (f n).
Proof.
  revert doc; induction p as [|i p IH]; intros doc H; cbn [node_at change_at] in *; [congruence|].
  destruct (nth_error (kids_of doc) i) as [c|] eqn:E; [|discriminate].
  rewrite kids_with by (eapply kids_elem; exact E). rewrite nth_change, E. apply IH. exact H.
Qed.

Lemma change_at_ext doc p f g n : node_at doc p = Some n -> f n = g n -> change_at doc p f = change_at doc p g.
Proof.
  revert doc; induction p as [|i p IH]; intros doc H E; cbn [node_at change_at] in *; [congruence|].
  f_equal. apply change_nth_ext. intros c Hc. rewrite Hc in H. apply IH; assumption.
Qed.

Lemma change_at_app doc p q f : change_at doc (p ++ q) f = change_at doc p (fun m => change_at m q f).
Proof.
  revert doc; induction p as [|i p IH]; intros doc; [reflexivity|]. cbn [app change_at]. f_equal.
  apply change_nth_ext. intros c _. apply IH.
Qed.

Lemma change_at_twice doc p f g n : node_at doc p = Some n -> change_at (change_at doc p f) p g = change_at doc p (fun m => g (f m)).
Proof.
  revert doc; induction p as [|i p IH]; intros doc H; cbn [node_at change_at] in *; [reflexivity|].
  destruct (nth_error (kids_of doc) i) as [c|] eqn:E; [|discriminate].
  rewrite kids_with by (eapply kids_elem; exact E). rewrite with_with, change_nth_twice. f_equal.
  apply change_nth_ext. intros d Hd. rewrite E in Hd. injection Hd as <-. apply IH. exact H.
Qed.

Lemma change_nth_last k c f : change_nth (List.length k) f (k ++ [c]) = k ++ [f c].
Proof. induction k as [|x k IH]; [reflexivity|]. cbn. f_equal. exact IH. Qed.

Lemma named_elem m c : named m c = true -> is_elem c = true.
Proof. destruct c; [reflexivity|discriminate..]. Qed.

Section Path.
Variable valid : str -> bool.

Lemma write_loop v rest : forall ns doc at_ n, Forall (plain valid) ns -> node_at doc at_ = Some n -> is_elem n = true ->
  exists doc' q m, simple_loop valid true (ns ++ rest) doc at_ v = simple_loop valid true rest doc' q v /\
    node_at doc' q = Some m /\ forall g, change_at doc' q g = change_at doc at_ (put g ns).
Proof.
  induction ns as [|m ns IH]; intros doc at_ n Hp Hn He.
  - exists doc, at_, n. auto.
  - inversion Hp as [|? ? Hm Hns]; subst. cbn [app simple_loop]. rewrite Hn, (parse_plain valid m Hm).
    destruct Hm as (_ & Hv & _). unfold get_child. rewrite Hv, child_loop_0.
    pose proof (find_loop_find m (kids_of n) 0) as F. destruct (find_loop m (kids_of n) 0) as [p|].
    + destruct F as (_ & c & H1 & H2 & H3 & H4). rewrite Nat.sub_0_r in *.
      destruct (IH doc (at_ ++ [p]) c Hns) as (doc' & q & m' & E1 & E2 & E3).
      * rewrite node_at_app, Hn. cbn [node_at]. rewrite H1. reflexivity.
      * apply named_elem with m. exact H3.
      * exists doc', q, m'. split; [exact E1|]. split; [exact E2|]. intros g. rewrite E3, change_at_app.
        apply change_at_ext with n; [exact Hn|]. cbn [change_at put]. rewrite H4. reflexivity.
    + destruct F as [H1 H2]. unfold create_before. rewrite Hv.
      change (true && (N.eqb (if Nat.eqb 0 0 then ElementNotFound else BadArrayIndex) ElementNotFound || N.eqb (if Nat.eqb 0 0 then ElementNotFound else BadArrayIndex) BadArrayIndex)) with true. cbv iota.
      set (doc1 := change_at doc at_ (fun m0 => with_kids m0 (kids_of n ++ [Elem m [] []]))).
      assert (N1 : node_at doc1 at_ = Some (with_kids n (kids_of n ++ [Elem m [] []]))) by (unfold doc1; rewrite (node_at_change _ _ _ _ Hn); reflexivity).
      destruct (IH doc1 (at_ ++ [List.length (kids_of n)]) (Elem m [] []) Hns) as (doc' & q & m' & E1 & E2 & E3).
      * rewrite node_at_app, N1. cbn [node_at]. rewrite kids_with by exact He.
        rewrite nth_error_app2, Nat.sub_diag by lia. reflexivity.
      * reflexivity.
      * exists doc', q, m'. split; [exact E1|]. split; [exact E2|]. intros g. rewrite E3, change_at_app. unfold doc1.
        rewrite (change_at_twice _ _ _ _ _ Hn).
        apply change_at_ext with n; [exact Hn|]. cbn [change_at put]. rewrite H2, with_with, kids_with by exact He.
        rewrite change_nth_last. reflexivity.
Qed.

Lemma read_loop v rest : forall ns doc at_ n, Forall (plain valid) ns -> node_at doc at_ = Some n ->
  match look ns n with
  | Some m => exists q, simple_loop valid false (ns ++ rest) doc at_ v = simple_loop valid false rest doc q v /\ node_at doc q = Some m
  | None => simple_loop valid false (ns ++ rest) doc at_ v = DOk (doc, None, v, ElementNotFound)
  end.
Proof.
  induction ns as [|m ns IH]; intros doc at_ n Hp Hn; cbn [look app].
  - exists at_. split; [reflexivity|exact Hn].
  - inversion Hp as [|? ? Hm Hns]; subst. cbn [simple_loop]. rewrite Hn, (parse_plain valid m Hm).
    destruct Hm as (_ & Hv & _). unfold get_child. rewrite Hv, child_loop_0.
    pose proof (find_loop_find m (kids_of n) 0) as F. destruct (find_loop m (kids_of n) 0) as [p|].
    + destruct F as (_ & c & H1 & H2 & _). rewrite Nat.sub_0_r in *. rewrite H2. apply IH; [exact Hns|].
      rewrite node_at_app, Hn. cbn [node_at]. rewrite H1. reflexivity.
    + destruct F as [H1 _]. rewrite H1. reflexivity.
Qed.

(** Setting a value by a path of names. *)
Theorem C122_set : forall root ns v doc, Forall (plain valid) (root :: ns) -> is_elem doc = true -> name_of doc = root ->
  set_simple valid (join (root :: ns)) v doc = DOk (put (valued v) ns doc, NoError).
Proof.
  intros root ns v doc Hp He Hr. unfold set_simple, do_simple. rewrite tokenize_join by (eapply Forall_impl; [apply plain_token|exact Hp]).
  rewrite Hr, str_eqb_refl. inversion Hp as [|? ? _ Hns]; subst.
  destruct (write_loop v [] ns doc [] doc Hns eq_refl He) as (doc' & q & m & E1 & _ & E2). rewrite app_nil_r in E1. rewrite E1.
  cbn [simple_loop]. change (N.eqb NoError NoError) with true. cbv iota.
  change (fun m0 => with_kids m0 (set_value v (kids_of m0))) with (valued v). rewrite E2. reflexivity.
Qed.

(** Reading one: the value of the node that the path means, or the default. *)
Theorem C122_get : forall root ns doc dflt, Forall (plain valid) (root :: ns) -> name_of doc = root ->
  get_simple valid (join (root :: ns)) doc dflt =
  DOk (match look ns doc with Some m => match kids_of m with c :: _ => node_value c | [] => [] end | None => dflt end).
Proof.
  intros root ns doc dflt Hp Hr. unfold get_simple, do_simple. rewrite tokenize_join by (eapply Forall_impl; [apply plain_token|exact Hp]).
  rewrite Hr, str_eqb_refl. inversion Hp as [|? ? _ Hns]; subst.
  pose proof (read_loop [] [] ns doc [] doc Hns eq_refl) as H. rewrite app_nil_r in H. destruct (look ns doc) as [m|].
  - destruct H as (q & E1 & E2). rewrite E1. cbn [simple_loop]. change (N.eqb NoError NoError) with true. cbv iota. rewrite E2.
    destruct (kids_of m); reflexivity.
  - rewrite H. reflexivity.
Qed.

(** A path that ends with an attribute: [root/a/b/$attribute]. *)
Definition attr_path (root : str) (ns : list str) (a : str) : str := join (root :: ns ++ [36%N :: a]).

Lemma attr_tokens root ns a : Forall (plain valid) (root :: ns) -> ~ In 47%N a -> ~ In 39%N a ->
  tokenize 47 (attr_path root ns a) = root :: ns ++ [36%N :: a].
Proof.
  intros Hp H1 H2. unfold attr_path. change (root :: ns ++ [36%N :: a]) with ((root :: ns) ++ [36%N :: a]).
  apply tokenize_join, Forall_app. split; [eapply Forall_impl; [apply plain_token|exact Hp]|].
  constructor; [|constructor]. split; [intros Hx; discriminate Hx|].
  split; (intros [Hi|Hi]; [discriminate Hi|tauto]).
Qed.

Theorem C122_set_attribute : forall root ns a v doc, Forall (plain valid) (root :: ns) -> is_elem doc = true -> name_of doc = root ->
  valid a = true -> ~ In 47%N a -> ~ In 39%N a ->
  set_simple valid (attr_path root ns a) v doc = DOk (put (attributed a v) ns doc, NoError).
Proof.
  intros root ns a v doc Hp He Hr Ha H1 H2. unfold set_simple, do_simple. rewrite attr_tokens by assumption.
  rewrite Hr, str_eqb_refl. inversion Hp as [|? ? _ Hns]; subst.
  destruct (write_loop v [36%N :: a] ns doc [] doc Hns eq_refl He) as (doc' & q & m & E1 & Em & E2). rewrite E1.
  cbn [simple_loop]. rewrite Em. change (parse_token (36%N :: a)) with (AttrOf a).
  assert (G : forall l, l = attrs_of (attributed a v m) \/ is_elem m = false -> change_at doc' q (fun x => with_attrs x l) = put (attributed a v) ns doc).
  { intros l Hl. transitivity (change_at doc' q (attributed a v)); [|rewrite E2; reflexivity].
    apply change_at_ext with m; [exact Em|]. destruct m as [nm al kl| | |]; [|reflexivity..].
    destruct Hl as [->|Hl]; [|discriminate]. reflexivity. }
  assert (Q : exists l, set_attr valid a v (attrs_of m) = DOk l /\ (l = attrs_of (attributed a v m) \/ is_elem m = false)).
  { unfold set_attr, attributed. rewrite Ha. destruct m as [nm al kl| | |].
    - cbn [attrs_of with_attrs]. destruct (find_attr a al); eexists; (split; [reflexivity|left; reflexivity]).
    - eexists; split; [reflexivity|right; reflexivity].
    - eexists; split; [reflexivity|right; reflexivity].
    - eexists; split; [reflexivity|right; reflexivity]. }
  destruct Q as (l & -> & Hl). rewrite (G l Hl). reflexivity.
Qed.

Theorem C122_get_attribute : forall root ns a doc dflt, Forall (plain valid) (root :: ns) -> name_of doc = root ->
  ~ In 47%N a -> ~ In 39%N a ->
  get_simple valid (attr_path root ns a) doc dflt =
  DOk (match look ns doc with
       | Some m => match find_attr a (attrs_of m) with Some v => v | None => dflt end
       | None => dflt
       end).
Proof.
  intros root ns a doc dflt Hp Hr H1 H2. unfold get_simple, do_simple. rewrite attr_tokens by assumption.
  rewrite Hr, str_eqb_refl. inversion Hp as [|? ? _ Hns]; subst.
  pose proof (read_loop [] [36%N :: a] ns doc [] doc Hns eq_refl) as H. destruct (look ns doc) as [m|].
  - destruct H as (q & E1 & E2). rewrite E1. cbn [simple_loop]. rewrite E2. change (parse_token (36%N :: a)) with (AttrOf a).
    unfold get_attr. destruct (find_attr a (attrs_of m)); reflexivity.
  - rewrite H. reflexivity.
Qed.
End Path.

Lemma find_put_first m f k c : (forall d, named m d = true -> named m (f d) = true) -> find (named m) k = Some c ->
  exists r, put_first (named m) f k = Some r /\ find (named m) r = Some (f c).
Proof.
  intros Hf. induction k as [|d k IH]; cbn; [discriminate|]. destruct (named m d) eqn:E.
  - intros H. injection H as <-. eexists; split; [reflexivity|]. cbn. rewrite (Hf d E). reflexivity.
  - intros H. destruct (IH H) as (r & -> & Er). eexists; split; [reflexivity|]. cbn. rewrite E. exact Er.
Qed.
Lemma put_first_other m m' f k : (forall d, named m' (f d) = named m' d) -> m' <> m ->
  forall r, put_first (named m) f k = Some r -> find (named m') r = find (named m') k.
Proof.
  intros Hf Hne. induction k as [|d k IH]; cbn; [discriminate|]. intros r. destruct (named m d) eqn:E.
  - intros H. injection H as <-. cbn. rewrite Hf. destruct (named m' d) eqn:E1; [|reflexivity].
    destruct d as [n a l| | |]; cbn in E, E1; try discriminate. apply str_eqb_spec in E, E1. congruence.
  - destruct (put_first (named m) f k) as [r0|]; [|discriminate]. intros H. injection H as <-. cbn. rewrite (IH r0 eq_refl). reflexivity.
Qed.
Lemma find_none_put m f k : find (named m) k = None -> put_first (named m) f k = None.
Proof. induction k as [|d k IH]; cbn; [reflexivity|]. destruct (named m d); [discriminate|]. intros H. rewrite IH by exact H. reflexivity. Qed.
(** Changes that keep the name and what the children are found by. *)
Definition keeps (g : dom -> dom) : Prop :=
  (forall n, name_of (g n) = name_of n /\ is_elem (g n) = is_elem n) /\
  forall m n, find (named m) (kids_of (g n)) = find (named m) (kids_of n).
Lemma named_name m n : named m n = is_elem n && str_eqb m (name_of n).
Proof. destruct n; reflexivity. Qed.
Lemma named_put g m ns n : keeps g -> named m (put g ns n) = named m n.
Proof.
  intros [Hg _]. rewrite !named_name. destruct ns.
  - destruct (Hg n) as [H1 H2]. cbn [put]. rewrite H1, H2. reflexivity.
  - destruct n; reflexivity.
Qed.
Lemma find_app_named m k c : find (named m) (k ++ [c]) = match find (named m) k with Some d => Some d | None => if named m c then Some c else None end.
Proof. induction k as [|d k IH]; cbn; [reflexivity|]. destruct (named m d); [reflexivity|exact IH]. Qed.
Lemma find_set_value m v k : find (named m) (set_value v k) = find (named m) k.
Proof.
  unfold set_value. assert (H : forall r, set_text v k = Some r -> find (named m) r = find (named m) k).
  { induction k as [|c k IH]; cbn; [discriminate|]. intros r. destruct c as [n a l|t|t|t]; cbn.
    2: { intros H. injection H as <-. reflexivity. }
    all: destruct (set_text v k) as [r0|]; [|discriminate]; intros H; injection H as <-; cbn; rewrite (IH r0 eq_refl); reflexivity. }
  destruct (set_text v k) as [r|]; [apply H; reflexivity|]. rewrite find_app_named. cbn. destruct (find (named m) k); reflexivity.
Qed.

Lemma keeps_valued v : keeps (valued v).
Proof.
  split; [intros n; destruct n; split; reflexivity|]. intros m n. destruct n as [nm al kl| | |]; try reflexivity.
  unfold valued. cbn [kids_of with_kids]. apply find_set_value.
Qed.
Lemma keeps_attributed a v : keeps (attributed a v).
Proof. split; [intros n; destruct n; split; reflexivity|]. intros m n. destruct n; reflexivity. Qed.

(** The node that the path means afterwards. *)
Lemma look_put g ns : keeps g -> forall n, is_elem n = true ->
  exists m, look ns (put g ns n) = Some (g m) /\ is_elem m = true /\
    match look ns n with Some m0 => m = m0 | None => kids_of m = [] end.
Proof.
  intros Hg. induction ns as [|x ns IH]; intros n He.
  - exists n. cbn. auto.
  - cbn [put look]. rewrite kids_with by exact He. destruct (find (named x) (kids_of n)) as [c|] eqn:Ef.
    + destruct (find_put_first x (put g ns) (kids_of n) c) as (r & Er & Fr); [intros d Hd; rewrite named_put by exact Hg; exact Hd|exact Ef|].
      rewrite Er, Fr. apply IH. apply find_some in Ef as [_ Ef]. eapply named_elem; exact Ef.
    + rewrite (find_none_put x _ _ Ef). rewrite find_app_named, Ef, named_put by exact Hg. cbn [named]. rewrite str_eqb_refl.
      destruct (IH (Elem x [] []) eq_refl) as (m & E1 & E2 & E3). exists m. split; [exact E1|]. split; [exact E2|].
      destruct ns as [|y ns]; cbn in E3.
      * subst m. reflexivity.
      * exact E3.
Qed.
Lemma name_put g ns n : keeps g -> name_of (put g ns n) = name_of n.
Proof. intros [Hg _]. destruct ns; [apply Hg|destruct n; reflexivity]. Qed.

(** Round trip: a value that was set by a path of names is read back if the node is new or has no child or a text as
    first child. *)
Theorem C122_round_trip : forall valid root ns v doc dflt, Forall (plain valid) (root :: ns) -> is_elem doc = true -> name_of doc = root ->
  match look ns doc with Some m => kids_of m = [] \/ exists t r, kids_of m = Text t :: r | None => True end ->
  exists doc', set_simple valid (join (root :: ns)) v doc = DOk (doc', NoError) /\
    get_simple valid (join (root :: ns)) doc' dflt = DOk v.
Proof.
  intros valid root ns v doc dflt Hp He Hr Hk. exists (put (valued v) ns doc). split; [apply C122_set; assumption|].
  rewrite C122_get; [|exact Hp|rewrite name_put by apply keeps_valued; exact Hr].
  destruct (look_put (valued v) ns (keeps_valued v) doc He) as (m & -> & Em & Hm).
  unfold valued. rewrite kids_with by exact Em.
  assert (Hk' : kids_of m = [] \/ exists t r, kids_of m = Text t :: r).
  { destruct (look ns doc) as [m0|]; [subst m0; exact Hk|left; exact Hm]. }
  destruct Hk' as [->|(t & r & ->)]; reflexivity.
Qed.

(** For attributes there is no condition on the node. *)
Theorem C122_attribute_round_trip : forall valid root ns a v doc dflt, Forall (plain valid) (root :: ns) -> is_elem doc = true ->
  name_of doc = root -> valid a = true -> ~ In 47%N a -> ~ In 39%N a ->
  exists doc', set_simple valid (attr_path root ns a) v doc = DOk (doc', NoError) /\
    get_simple valid (attr_path root ns a) doc' dflt = DOk v.
Proof.
  intros valid root ns a v doc dflt Hp He Hr Ha H1 H2. exists (put (attributed a v) ns doc). split; [apply C122_set_attribute; assumption|].
  rewrite C122_get_attribute; [|exact Hp|rewrite name_put by apply keeps_attributed; exact Hr|assumption..].
  destruct (look_put (attributed a v) ns (keeps_attributed a v) doc He) as (m & -> & Em & _).
  destruct m as [nm al kl| | |]; try discriminate Em. unfold attributed. cbn [attrs_of with_attrs].
  destruct (find_attr a al) eqn:E.
  - rewrite find_change, str_eqb_refl, E. reflexivity.
  - rewrite find_app, E. cbn. rewrite str_eqb_refl. reflexivity.
Qed.

Definition sample_doc : dom := Elem T"GDTF" [] [Text T" "; Elem T"Info" [] [Text T"old"]].
Definition no_digit_first (s : str) : bool := match s with x :: _ => negb (N.leb x 64) | [] => false end.
Example C122_round_trip_case :
  Forall (plain no_digit_first) [T"GDTF"; T"Info"; T"Name"] /\
  set_simple no_digit_first T"GDTF/Info/Name" T"x" sample_doc =
    DOk (Elem T"GDTF" [] [Text T" "; Elem T"Info" [] [Text T"old"; Elem T"Name" [] [Text T"x"]]], NoError) /\
  get_simple no_digit_first T"GDTF/Info" sample_doc [] = DOk T"old" /\
  set_simple no_digit_first T"GDTF/Info/$id" T"7" sample_doc =
    DOk (Elem T"GDTF" [] [Text T" "; Elem T"Info" [(T"id", T"7")] [Text T"old"]], NoError).
Proof.
  split; [|split; [|split]; reflexivity].
  assert (H : forall s, (match s with [] => false | _ => true end && no_digit_first s && negb (starts 36 s) &&
      forallb (fun c => negb (N.eqb c 47) && negb (N.eqb c 39) && negb (N.eqb c 91)) s) = true -> plain no_digit_first s).
  { intros s H. apply andb_prop in H as [H Hf]. apply andb_prop in H as [H Hs]. apply andb_prop in H as [Hn Hv].
    rewrite forallb_forall in Hf. split; [destruct s; [discriminate|intros Hx; discriminate Hx]|].
    split; [exact Hv|]. split; [apply negb_true_iff; exact Hs|].
    split; [intros Hi; apply Hf in Hi; discriminate Hi|]. split; intros Hi; apply Hf in Hi; discriminate Hi. }
  repeat constructor; apply H; reflexivity.
Qed.

(** The nodes that other paths mean are not changed: a path that is not the beginning of the one written. *)
Fixpoint prefix (a b : list str) : bool :=
  match a, b with [], _ => true | x :: a', y :: b' => str_eqb x y && prefix a' b' | _ :: _, [] => false end.
Theorem C122_others : forall ns v a w other n m, is_elem n = true -> prefix other ns = false ->
  look other n = Some m -> look other (put (valued v) ns n) = Some m /\ look other (put (attributed a w) ns n) = Some m.
Proof.
  assert (G : forall g, keeps g -> forall ns other n m, is_elem n = true -> prefix other ns = false ->
    look other n = Some m -> look other (put g ns n) = Some m).
  { intros g Hg. induction ns as [|x ns IH]; intros other n m He Hp Hl.
    - destruct other as [|y other]; [discriminate|]. cbn [look put] in *. rewrite (proj2 Hg). exact Hl.
    - destruct other as [|y other]; [discriminate|]. cbn [look put prefix] in *. rewrite kids_with by exact He.
      destruct (str_eqb y x) eqn:E.
      + apply str_eqb_spec in E. subst y. cbn [andb] in Hp. destruct (find (named x) (kids_of n)) as [c|] eqn:Ef; [|discriminate].
        destruct (find_put_first x (put g ns) (kids_of n) c) as (r & Er & Fr); [intros d Hd; rewrite named_put by exact Hg; exact Hd|exact Ef|].
        rewrite Er, Fr. apply IH; [|exact Hp|exact Hl]. apply find_some in Ef as [_ Ef]. eapply named_elem; exact Ef.
      + assert (Hne : y <> x) by (intros ->; rewrite str_eqb_refl in E; discriminate).
        destruct (put_first (named x) (put g ns) (kids_of n)) as [r|] eqn:Ep.
        * rewrite (put_first_other x y (put g ns) (kids_of n)) with (r := r); [exact Hl| |exact Hne|exact Ep]. intros d; apply named_put; exact Hg.
        * rewrite find_app_named. destruct (find (named y) (kids_of n)); [exact Hl|discriminate]. }
  intros ns v a w other n m He Hp Hl. split; apply G; auto using keeps_valued, keeps_attributed.
Qed.
Example C122_others_case : prefix [T"Info"] [T"Name"; T"First"] = false /\
  look [T"Info"] (put (valued T"x") [T"Name"; T"First"] sample_doc) = Some (Elem T"Info" [] [Text T"old"]).
Proof. split; reflexivity. Qed.

(** ** C122, paths with indices and conditions *)

(** The steps of a path: [name], [name[12]] (the digits of the index) and [name[$attribute='value']]. *)
Inductive step := SName (n : str) | SIndex (n : str) (ds : list nat) | SCond (n a v : str).
Definition digit_text (ds : list nat) : str := map (fun d => (48 + N.of_nat d)%N) ds.
Definition step_text (s : step) : str :=
  match s with
  | SName n => n
  | SIndex n ds => n ++ 91%N :: digit_text ds ++ [93%N]
  | SCond n a v => n ++ 91%N :: (36%N :: a ++ 61%N :: 39%N :: v ++ [39%N]) ++ [93%N]
  end.
Definition none_of (l : list N) (s : str) : Prop := forall c, In c l -> ~ In c s.
Definition step_ok (valid : str -> bool) (s : step) : Prop :=
  match s with
  | SName n => plain valid n
  | SIndex n ds => plain valid n /\ ~ In 93%N n /\ ds <> [] /\ Forall (fun d => d < 10) ds
  | SCond n a v => plain valid n /\ ~ In 93%N n /\ a <> [] /\ v <> [] /\
                   none_of [32; 39; 47; 61; 93]%N a /\ none_of [39; 93]%N v
  end.

(** Which child a step means: the one with the index among those that meet the step. *)
Definition meets (s : step) (c : dom) : bool :=
  match s with SName n => named n c | SIndex n _ => named n c | SCond n a v => named n c && has_attr a v c end.
Definition index_of (s : step) : nat := match s with SIndex _ ds => fold_left (fun acc d => acc * 10 + d) ds 0 | _ => 0 end.
Definition positions (p : dom -> bool) (k : list dom) (base : nat) : list nat :=
  map fst (filter (fun pc => p (snd pc)) (combine (seq base (List.length k)) k)).
Fixpoint locate (ss : list step) (n : dom) : option (list nat) :=
  match ss with
  | [] => Some []
  | s :: ss' =>
    match nth_error (positions (meets s) (kids_of n) 0) (index_of s) with
    | Some p => match nth_error (kids_of n) p with
                | Some c => match locate ss' c with Some q => Some (p :: q) | None => None end
                | None => None
                end
    | None => None
    end
  end.

Definition steps_path (root : str) (ss : list step) : str := join (root :: map step_text ss).

(** Texts that are one token, also with quotes in them. *)
Definition whole (sep : N) (t : str) : Prop := t <> [] /\ forall cur rest,
  tokenize_loop sep 39 (t ++ rest) cur false = tokenize_loop sep 39 rest (rev t ++ cur) false.

Lemma run_free sep t st : sep <> 39%N -> (st = true \/ ~ In sep t) -> ~ In 39%N t -> forall cur rest,
  tokenize_loop sep 39 (t ++ rest) cur st = tokenize_loop sep 39 rest (rev t ++ cur) st.
Proof.
  intros Hs. induction t as [|x t IH]; intros H1 H2 cur rest; [reflexivity|]. cbn [app tokenize_loop].
  destruct (N.eqb_spec x 39) as [->|_]; [exfalso; apply H2; left; reflexivity|].
  assert (Hx : negb st && N.eqb x sep = false).
  { destruct H1 as [->|H1]; [reflexivity|]. destruct (N.eqb_spec x sep) as [->|_]; [exfalso; apply H1; left; reflexivity|]. apply andb_false_r. }
  rewrite Hx, IH.
  - cbn [rev]. rewrite <- app_assoc. reflexivity.
  - destruct H1 as [H1|H1]; [left; exact H1|right; intros Hi; apply H1; right; exact Hi].
  - intros Hi; apply H2; right; exact Hi.
Qed.
Lemma run_quoted sep v cur rest : sep <> 39%N -> ~ In 39%N v ->
  tokenize_loop sep 39 ((39%N :: v ++ [39%N]) ++ rest) cur false = tokenize_loop sep 39 rest (rev (39%N :: v ++ [39%N]) ++ cur) false.
Proof.
  intros Hs Hv. cbn [app tokenize_loop]. rewrite N.eqb_refl. cbn [negb andb]. rewrite <- app_assoc.
  rewrite run_free by auto. cbn [app tokenize_loop]. rewrite N.eqb_refl. cbn [negb].
  destruct (N.eqb_spec 39 sep) as [E|_]; [congruence|]. cbn [andb]. f_equal.
  cbn [rev]. rewrite rev_app_distr. cbn [rev app]. rewrite <- app_assoc. reflexivity.
Qed.

Lemma whole_join ns : Forall (whole 47) ns -> tokenize 47 (join ns) = ns.
Proof.
  unfold tokenize. induction ns as [|n ns IH]; intros H; [reflexivity|].
  inversion H as [|? ? Hn Hns]; subst. destruct Hn as (Hne & H1).
  destruct ns as [|m ns].
  - cbn [join]. rewrite <- (app_nil_r n) at 1. rewrite H1, app_nil_r. cbn [tokenize_loop].
    destruct (rev n) as [|x r] eqn:E.
    + exfalso. apply Hne. rewrite <- (rev_involutive n), E. reflexivity.
    + rewrite <- E, rev_involutive. reflexivity.
  - cbn [join]. rewrite H1. cbn [tokenize_loop]. rewrite app_nil_r, rev_involutive.
    change (if N.eqb 47 39 then negb false else false) with false. cbn [negb andb]. rewrite N.eqb_refl. f_equal. apply IH. exact Hns.
Qed.

Lemma digit_text_in ds c : Forall (fun d => d < 10) ds -> In c (digit_text ds) -> (48 <= c <= 57)%N.
Proof.
  intros H Hi. unfold digit_text in Hi. apply in_map_iff in Hi as (d & <- & Hd). rewrite Forall_forall in H. specialize (H d Hd). lia.
Qed.

Lemma step_whole valid s : step_ok valid s -> whole 47 (step_text s).
Proof.
  destruct s as [n|n ds|n a v]; cbn [step_ok step_text].
  - intros (H1 & _ & _ & H2 & H3 & _). split; [exact H1|]. intros cur rest. apply run_free; [discriminate|right; exact H2|exact H3].
  - intros ((H1 & _ & _ & H2 & H3 & _) & _ & Hd & Hf). split; [destruct n; [contradiction|discriminate]|].
    intros cur rest. apply run_free; [discriminate|right|].
    + intros Hi. apply in_app_or in Hi as [Hi|[Hi|Hi]]; [tauto|discriminate Hi|].
      apply in_app_or in Hi as [Hi|[Hi|[]]]; [|discriminate Hi]. apply (digit_text_in _ _ Hf) in Hi. lia.
    + intros Hi. apply in_app_or in Hi as [Hi|[Hi|Hi]]; [tauto|discriminate Hi|].
      apply in_app_or in Hi as [Hi|[Hi|[]]]; [|discriminate Hi]. apply (digit_text_in _ _ Hf) in Hi. lia.
  - intros ((H1 & _ & _ & H2 & H3 & _) & _ & Ha & Hv & Na & Nv). split; [destruct n; [contradiction|discriminate]|].
    intros cur rest.
    replace (n ++ 91%N :: (36%N :: a ++ 61%N :: 39%N :: v ++ [39%N]) ++ [93%N])
      with ((n ++ [91%N; 36%N] ++ a ++ [61%N]) ++ (39%N :: v ++ [39%N]) ++ [93%N])
      by (cbn [app]; rewrite <- !app_assoc; cbn [app]; rewrite <- !app_assoc; reflexivity).
    rewrite rev_app_distr, <- !app_assoc. rewrite (app_assoc n), (app_assoc _ a), (app_assoc _ [61%N]).
    rewrite run_free; [|discriminate|right|].
    + rewrite run_quoted; [|discriminate|apply Nv; cbn; auto].
      rewrite run_free; [|discriminate|right; cbn; intros [Hi|[]]; discriminate Hi|cbn; intros [Hi|[]]; discriminate Hi].
      f_equal. rewrite (rev_app_distr _ [93%N]), <- !app_assoc. reflexivity.
    + intros Hi. rewrite !in_app_iff in Hi. cbn in Hi. pose proof (Na 47%N ltac:(cbn; auto)).
      destruct Hi as [[[Hi|[Hi|[Hi|[]]]]|Hi]|[Hi|[]]]; try discriminate Hi; tauto.
    + intros Hi. rewrite !in_app_iff in Hi. cbn in Hi. pose proof (Na 39%N ltac:(cbn; auto)).
      destruct Hi as [[[Hi|[Hi|[Hi|[]]]]|Hi]|[Hi|[]]]; try discriminate Hi; tauto.
Qed.

Lemma find_char_app ch p r pos : ~ In ch p -> find_char ch (p ++ ch :: r) pos = Some (pos + List.length p).
Proof.
  revert pos; induction p as [|x p IH]; intros pos H; cbn [app find_char List.length].
  - rewrite N.eqb_refl. f_equal. lia.
  - destruct (N.eqb_spec x ch) as [->|_]; [exfalso; apply H; left; reflexivity|].
    rewrite IH by (intros Hi; apply H; right; exact Hi). f_equal. lia.
Qed.
Lemma mid_exact (p t r : str) : mid (p ++ t ++ r) (List.length p) (List.length t) = t.
Proof.
  unfold mid. rewrite skipn_app, skipn_all, Nat.sub_diag. cbn [app skipn]. rewrite firstn_app, Nat.sub_diag, firstn_all. cbn [firstn]. apply app_nil_r.
Qed.

Lemma starts_app c n r : n <> [] -> starts c (n ++ r) = starts c n.
Proof. destruct n; [contradiction|reflexivity]. Qed.

Lemma parse_brackets n inner : n <> [] -> starts 36 n = false -> ~ In 91%N n -> ~ In 93%N n -> inner <> [] -> ~ In 93%N inner ->
  parse_token (n ++ 91%N :: inner ++ [93%N]) = parse_inner n inner.
Proof.
  intros Hn Hs H1 H2 Hi H3. unfold parse_token. rewrite starts_app, Hs by exact Hn.
  rewrite find_char_app by exact H1.
  replace (n ++ 91%N :: inner ++ [93%N]) with ((n ++ 91%N :: inner) ++ 93%N :: []) by (rewrite <- app_assoc; reflexivity).
  rewrite find_char_app by (intros Hx; apply in_app_or in Hx as [Hx|[Hx|Hx]]; [tauto|discriminate Hx|tauto]).
  cbn [plus]. rewrite app_length. cbn [List.length].
  destruct inner as [|x inner]; [contradiction|].
  rewrite (proj2 (Nat.ltb_lt _ _)) by (cbn [List.length]; lia).
  rewrite <- !app_assoc, firstn_app, Nat.sub_diag, firstn_all. cbn [firstn]. rewrite app_nil_r. f_equal.
  replace (n ++ (91%N :: x :: inner) ++ [93%N]) with ((n ++ [91%N]) ++ (x :: inner) ++ [93%N]) by (rewrite <- app_assoc; reflexivity).
  replace (S (List.length n)) with (List.length (n ++ [91%N])) by (rewrite app_length; cbn; lia).
  replace (List.length n + S (List.length (x :: inner)) - List.length n - 1) with (List.length (x :: inner)) by lia.
  apply mid_exact.
Qed.

Lemma digits_text ds : Forall (fun d => d < 10) ds -> forall acc,
  digits (digit_text ds) acc = fold_left (fun acc d => acc * 10 + d) ds acc.
Proof.
  induction 1 as [|d ds Hd _ IH]; intros acc; [reflexivity|]. cbn [digit_text map digits fold_left].
  rewrite (proj2 (N.leb_le 48 _)), (proj2 (N.leb_le _ 57)) by lia. cbn [andb].
  replace (N.to_nat (48 + N.of_nat d - 48)) with d by lia. apply IH.
Qed.

Lemma trim_ends x s y : x <> 32%N -> y <> 32%N -> trim (x :: s ++ [y]) = x :: s ++ [y].
Proof.
  intros Hx Hy. unfold trim. cbn [drop_spaces]. rewrite (proj2 (N.eqb_neq x 32) Hx).
  change (x :: s ++ [y]) with ((x :: s) ++ [y]). rewrite rev_app_distr. cbn [rev app drop_spaces]. rewrite (proj2 (N.eqb_neq y 32) Hy).
  cbn [rev]. rewrite rev_app_distr, rev_involutive. reflexivity.
Qed.

Lemma parse_step valid s : step_ok valid s -> parse_token (step_text s) =
  match s with SName n => Child n 0 | SIndex n ds => Child n (index_of s) | SCond n a v => ChildWith n a v end.
Proof.
  destruct s as [n|n ds|n a v]; cbn [step_ok step_text].
  - intros H. exact (parse_plain valid n H).
  - intros ((H1 & _ & Hs & _ & _ & H4) & H5 & Hd & Hf).
    rewrite parse_brackets; try assumption.
    + unfold parse_inner. cbn [index_of]. rewrite <- (digits_text ds Hf). destruct ds as [|d ds]; [contradiction|].
      cbn [digit_text map starts]. inversion Hf as [|? ? Hd0 _]; subst.
      rewrite (proj2 (N.eqb_neq _ 36)) by lia. reflexivity.
    + destruct ds; [contradiction|discriminate].
    + intros Hi. apply (digit_text_in _ _ Hf) in Hi. lia.
  - intros ((H1 & _ & Hs & _ & _ & H4) & H5 & Ha & Hv & Na & Nv).
    pose proof (Na 32%N ltac:(cbn; auto)) as Na32. pose proof (Na 39%N ltac:(cbn; auto)) as Na39. pose proof (Na 61%N ltac:(cbn; auto)) as Na61.
    pose proof (Na 93%N ltac:(cbn; auto 6)) as Na93. pose proof (Nv 39%N ltac:(cbn; auto)) as Nv39. pose proof (Nv 93%N ltac:(cbn; auto)) as Nv93.
    rewrite parse_brackets; try assumption.
    + unfold parse_inner. cbn [starts]. rewrite N.eqb_refl.
      assert (Tk : tokenize 61 (36%N :: a ++ 61%N :: 39%N :: v ++ [39%N]) = [36%N :: a; 39%N :: v ++ [39%N]]).
      { unfold tokenize. change (36%N :: a ++ 61%N :: 39%N :: v ++ [39%N]) with ((36%N :: a) ++ 61%N :: 39%N :: v ++ [39%N]).
        pose proof (run_quoted 61 v [] [] ltac:(discriminate) Nv39) as R. rewrite !app_nil_r in R.
        assert (Hy : rev (39%N :: v ++ [39%N]) <> []) by (intros E; apply (f_equal (@List.length N)) in E; rewrite rev_length in E; discriminate).
        remember (39%N :: v ++ [39%N]) as y eqn:Ey. clear Ey.
        rewrite run_free; [|discriminate|right; intros [Hi|Hi]; [discriminate Hi|tauto]|intros [Hi|Hi]; [discriminate Hi|tauto]].
        rewrite app_nil_r. cbn [tokenize_loop].
        change (if N.eqb 61 39 then negb false else false) with false. cbn [negb andb]. rewrite N.eqb_refl, rev_involutive. f_equal.
        rewrite R. cbn [tokenize_loop]. destruct (rev y) as [|x r] eqn:E; [contradiction|].
        rewrite <- E, rev_involutive. reflexivity. }
      rewrite Tk.
      assert (T1 : trim (36%N :: a) = 36%N :: a).
      { destruct (exists_last Ha) as (a' & y & ->). apply trim_ends; [discriminate|].
        intros ->. apply Na32. apply in_or_app. right. left. reflexivity. }
      rewrite T1, trim_ends by discriminate. cbn [tl].
      assert (Sq : strip_quotes (39%N :: v ++ [39%N]) = v).
      { unfold strip_quotes. change (39%N :: v ++ [39%N]) with ((39%N :: v) ++ [39%N]). rewrite rev_app_distr. cbn [rev app starts].
        rewrite N.eqb_refl, !andb_true_r. cbn [List.length]. rewrite app_length. cbn [List.length].
        destruct v as [|y v]; [contradiction|].
        rewrite (proj2 (Nat.ltb_lt _ _)) by (cbn [List.length]; lia).
        replace (S (List.length (y :: v) + 1) - 2) with (List.length (y :: v)) by lia.
        exact (mid_exact [39%N] (y :: v) [39%N]). }
      rewrite Sq. destruct a; [contradiction|]. destruct v; [contradiction|]. reflexivity.
    + discriminate.
    + intros [Hi|Hi]; [discriminate Hi|]. apply in_app_or in Hi as [Hi|[Hi|[Hi|Hi]]]; [tauto|discriminate Hi|discriminate Hi|].
      apply in_app_or in Hi as [Hi|[Hi|[]]]; [tauto|discriminate Hi].
Qed.

Lemma child_attr_positions n a v k : forall base,
  child_attr_loop n a v k base = nth_error (positions (meets (SCond n a v)) k base) 0.
Proof.
  induction k as [|c k IH]; intros base; cbn [child_attr_loop]; [reflexivity|].
  rewrite named_is. fold (has_attr a v c). unfold positions. cbn [List.length seq combine filter snd meets].
  destruct (named n c && has_attr a v c); [reflexivity|]. apply IH.
Qed.

(** The child that is asked for is the one that the step means. *)
Lemma ask_step valid s k : step_ok valid s ->
  exists r, match parse_token (step_text s) with
            | AttrOf _ => False
            | Child n i => r = get_child valid n i k
            | ChildWith n a v => r = get_child_attr valid n a v k
            end /\
    match nth_error (positions (meets s) k 0) (index_of s) with Some p => r = inl p | None => exists e, r = inr e /\ e <> NoError end.
Proof.
  intros Hs. rewrite (parse_step valid s Hs). destruct s as [n|n ds|n a v]; cbn [step_ok] in Hs.
  - exists (get_child valid n 0 k). split; [reflexivity|]. rewrite C120_child by apply Hs.
    change (positions (meets (SName n)) k 0) with (named_positions n k 0). cbn [index_of].
    destruct (nth_error (named_positions n k 0) 0); [reflexivity|]. eexists; split; [reflexivity|].
    destruct (named_positions n k 0); discriminate.
  - eexists; split; [reflexivity|]. rewrite C120_child by apply Hs.
    change (positions (meets (SIndex n ds)) k 0) with (named_positions n k 0).
    destruct (nth_error (named_positions n k 0) _); [reflexivity|]. eexists; split; [reflexivity|].
    destruct (named_positions n k 0); discriminate.
  - eexists; split; [reflexivity|]. unfold get_child_attr. destruct Hs as ((_ & Hv & _) & _). rewrite Hv, child_attr_positions. cbn [index_of].
    destruct (nth_error _ 0); [reflexivity|]. eexists; split; [reflexivity|]. discriminate.
Qed.

Lemma positions_nth p k : forall base i q, nth_error (positions p k base) i = Some q -> base <= q /\ exists c, nth_error k (q - base) = Some c /\ p c = true.
Proof.
  induction k as [|c k IH]; intros base i q H; unfold positions in H; cbn [List.length seq combine filter snd] in H; [destruct i; discriminate|].
  destruct (p c) eqn:E.
  - destruct i as [|i]; cbn [map nth_error fst] in H.
    + injection H as <-. split; [lia|]. exists c. rewrite Nat.sub_diag. auto.
    + apply IH in H as (L & d & Hd & Ed). split; [lia|]. exists d. replace (q - base) with (S (q - S base)) by lia. auto.
  - apply IH in H as (L & d & Hd & Ed). split; [lia|]. exists d. replace (q - base) with (S (q - S base)) by lia. auto.
Qed.

Lemma steps_loop valid wr v : forall ss doc at_ n, Forall (step_ok valid) ss -> node_at doc at_ = Some n ->
  match locate ss n with
  | Some q => simple_loop valid wr (map step_text ss) doc at_ v = DOk (doc, Some (at_ ++ q), v, NoError) /\ node_at doc (at_ ++ q) <> None
  | None => wr = false -> exists e, simple_loop valid wr (map step_text ss) doc at_ v = DOk (doc, None, v, e) /\ e <> NoError
  end.
Proof.
  induction ss as [|s ss IH]; intros doc at_ n Hs Hn; cbn [map locate].
  - rewrite app_nil_r. split; [reflexivity|congruence].
  - inversion Hs as [|? ? H1 H2]; subst. cbn [simple_loop]. rewrite Hn.
    destruct (ask_step valid s (kids_of n) H1) as (r & Hr & Hp).
    destruct (nth_error (positions (meets s) (kids_of n) 0) (index_of s)) as [p|] eqn:Ep.
    + subst r. destruct (positions_nth _ _ _ _ _ Ep) as (_ & c & Hc & _). rewrite Nat.sub_0_r in Hc. rewrite Hc.
      assert (Hn' : node_at doc (at_ ++ [p]) = Some c) by (rewrite node_at_app, Hn; cbn [node_at]; rewrite Hc; reflexivity).
      specialize (IH doc (at_ ++ [p]) c H2 Hn').
      destruct (parse_token (step_text s)) as [|m i|m a w]; [contradiction| |]; rewrite <- Hr;
        destruct (locate ss c) as [q|]; try exact IH; rewrite <- app_assoc in IH; exact IH.
    + destruct Hp as (e & -> & He). intros ->.
      destruct (parse_token (step_text s)) as [|m i|m a w]; [contradiction| |]; rewrite <- Hr; cbn [andb]; exists e; auto.
Qed.

Lemma steps_tokens valid root ss : plain valid root -> Forall (step_ok valid) ss ->
  tokenize 47 (steps_path root ss) = root :: map step_text ss.
Proof.
  intros Hr Hs. apply whole_join. constructor; [apply (step_whole valid (SName root) Hr)|].
  apply Forall_map. eapply Forall_impl; [|exact Hs]. intros s. apply step_whole.
Qed.

Definition first_value (n : dom) : str := match kids_of n with c :: _ => node_value c | [] => [] end.

(** Reading by such a path gives the value of the node that its steps mean, or the default. *)
Theorem C122_steps_get : forall valid root ss doc dflt, plain valid root -> Forall (step_ok valid) ss -> name_of doc = root ->
  get_simple valid (steps_path root ss) doc dflt =
  DOk (match locate ss doc with
       | Some q => match node_at doc q with Some m => first_value m | None => dflt end
       | None => dflt
       end).
Proof.
  intros valid root ss doc dflt Hr Hs Hd. unfold get_simple, do_simple. rewrite (steps_tokens valid) by assumption.
  rewrite Hd, str_eqb_refl. pose proof (steps_loop valid false [] ss doc [] doc Hs eq_refl) as H.
  destruct (locate ss doc) as [q|].
  - destruct H as [E Hn]. rewrite E. change (N.eqb NoError NoError) with true. cbv iota. cbn [app] in *.
    destruct (node_at doc q) as [m|]; [|congruence]. unfold first_value, get_value. destruct (kids_of m); reflexivity.
  - destruct (H eq_refl) as (e & E & He). rewrite E. cbv iota. rewrite (proj2 (N.eqb_neq e NoError) He). reflexivity.
Qed.

(** Writing to a node that exists changes the value of that node only. *)
Theorem C122_steps_set : forall valid root ss doc v q, plain valid root -> Forall (step_ok valid) ss -> name_of doc = root ->
  locate ss doc = Some q ->
  set_simple valid (steps_path root ss) v doc = DOk (change_at doc q (valued v), NoError).
Proof.
  intros valid root ss doc v q Hr Hs Hd Hl. unfold set_simple, do_simple. rewrite (steps_tokens valid) by assumption.
  rewrite Hd, str_eqb_refl. pose proof (steps_loop valid true v ss doc [] doc Hs eq_refl) as H. rewrite Hl in H.
  destruct H as [E _]. rewrite E. reflexivity.
Qed.

Lemma positions_change p i f k : (forall c, p (f c) = p c) -> forall base, positions p (change_nth i f k) base = positions p k base.
Proof.
  intros Hf. revert i; induction k as [|c k IH]; intros [|i] base; cbn [change_nth]; try reflexivity.
  - unfold positions. cbn [List.length seq combine filter snd]. rewrite Hf. destruct (p c); reflexivity.
  - unfold positions. cbn [List.length seq combine filter snd]. specialize (IH i (S base)). unfold positions in IH.
    destruct (p c); cbn [map]; rewrite IH; reflexivity.
Qed.
Lemma meets_change v q s c : meets s (change_at c q (valued v)) = meets s c.
Proof. destruct q, s, c; reflexivity. Qed.

Lemma locate_change v ss : forall n q, locate ss n = Some q -> locate ss (change_at n q (valued v)) = Some q.
Proof.
  induction ss as [|s ss IH]; intros n q H; cbn [locate] in H |- *; [congruence|].
  destruct (nth_error (positions (meets s) (kids_of n) 0) (index_of s)) as [p|] eqn:Ep; [|discriminate].
  destruct (nth_error (kids_of n) p) as [c|] eqn:Ec; [|discriminate].
  destruct (locate ss c) as [q'|] eqn:El; [|discriminate]. injection H as <-. cbn [change_at].
  rewrite kids_with by (eapply kids_elem; exact Ec). rewrite positions_change by (intros d; apply meets_change).
  rewrite Ep, nth_change, Ec, (IH c q' El). reflexivity.
Qed.

(** Round trip for such paths, if the node exists and has no child or a text as first child. *)
Theorem C122_steps_round_trip : forall valid root ss doc v q m dflt, plain valid root -> Forall (step_ok valid) ss ->
  name_of doc = root -> locate ss doc = Some q -> node_at doc q = Some m -> is_elem m = true ->
  kids_of m = [] \/ (exists t r, kids_of m = Text t :: r) ->
  exists doc', set_simple valid (steps_path root ss) v doc = DOk (doc', NoError) /\
    get_simple valid (steps_path root ss) doc' dflt = DOk v.
Proof.
  intros valid root ss doc v q m dflt Hr Hs Hd Hl Hn He Hk. exists (change_at doc q (valued v)).
  split; [apply C122_steps_set; assumption|]. rewrite C122_steps_get; [|assumption..|].
  - rewrite (locate_change v ss doc q Hl), (node_at_change _ _ _ _ Hn). unfold first_value, valued. rewrite kids_with by exact He.
    destruct Hk as [->|(t & r & ->)]; reflexivity.
  - destruct q, doc; exact Hd.
Qed.

Definition steps_doc : dom :=
  Elem T"GDTF" [] [Elem T"Mode" [(T"Name", T"a/b")] [Text T"one"]; Text T" "; Elem T"Mode" [(T"Name", T"c")] [Text T"two"]].
Example C122_steps_case :
  steps_path T"GDTF" [SIndex T"Mode" [0; 1]] = T"GDTF/Mode[01]" /\
  steps_path T"GDTF" [SCond T"Mode" T"Name" T"a/b"] = T"GDTF/Mode[$Name='a/b']" /\
  step_ok no_digit_first (SCond T"Mode" T"Name" T"a/b") /\
  locate [SIndex T"Mode" [0; 1]] steps_doc = Some [2] /\ locate [SCond T"Mode" T"Name" T"a/b"] steps_doc = Some [0] /\
  get_simple no_digit_first T"GDTF/Mode[01]" steps_doc [] = DOk T"two" /\
  get_simple no_digit_first T"GDTF/Mode[$Name='a/b']" steps_doc [] = DOk T"one".
Proof.
  assert (F : forall l s, forallb (fun c => negb (existsb (N.eqb c) l)) s = true -> none_of l s).
  { intros l s H c Hc Hs. rewrite forallb_forall in H. apply H in Hs. apply negb_true_iff in Hs.
    assert (existsb (N.eqb c) l = true) by (apply existsb_exists; exists c; split; [exact Hc|apply N.eqb_refl]). congruence. }
  assert (P : none_of [47; 39; 91; 93]%N T"Mode") by (apply F; reflexivity).
  repeat split; try reflexivity; try discriminate; try (apply P; cbn; auto); try (apply F; reflexivity).
Qed.

(** What fails: a node whose first child is another one; an index that is larger than the number of nodes (the value goes
    into the next node and is not found again); an attribute without a name ends in an exception. *)
Theorem C122_refuted :
  (exists doc path v doc', set_simple no_digit_first path v doc = DOk (doc', NoError) /\ get_simple no_digit_first path doc' T"none" <> DOk v /\
     path = T"GDTF/Info" ) /\
  (exists doc path v doc', set_simple no_digit_first path v doc = DOk (doc', NoError) /\ get_simple no_digit_first path doc' T"none" = DOk T"none" /\
     path = T"GDTF/Info[3]" /\ v = T"x") /\
  (exists doc path v, set_simple no_digit_first path v doc = DThrow /\ path = T"GDTF/$").
Proof.
  split; [|split].
  - exists (Elem T"GDTF" [] [Elem T"Info" [] [ev T"a"]]), (T"GDTF/Info"), (T"x"). eexists. split; [reflexivity|]. split; [|reflexivity].
    vm_compute. intros H. discriminate H.
  - exists sample_doc, (T"GDTF/Info[3]"), (T"x"). eexists. split; [reflexivity|]. split; [reflexivity|]. split; reflexivity.
  - exists sample_doc, (T"GDTF/$"), (T"x"). split; reflexivity.
Qed.

Print Assumptions C119_set_value.
Print Assumptions C119_value.
Print Assumptions C119_value_refuted.
Print Assumptions C119_cdata.
Print Assumptions C119_cdata_refuted.
Print Assumptions C119_cdata_keeps.
Print Assumptions C119_attribute.
Print Assumptions C119_attribute_set.
Print Assumptions C119_delete_attribute.
Print Assumptions C119_attribute_refuted.
Print Assumptions C120_forward.
Print Assumptions C120_backward.
Print Assumptions C120_loop.
Print Assumptions C120_loop_back.
Print Assumptions C120_child.
Print Assumptions C120_find.
Print Assumptions C120_child_attribute.
Print Assumptions C120_bad_name_refuted.
Print Assumptions C121_create.
Print Assumptions C121_append.
Print Assumptions C121_copy_partial.
Print Assumptions C121_copy_lost.
Print Assumptions C121_copy_refuted.
Print Assumptions C121_delete.
Print Assumptions C121_delete_elements.
Print Assumptions C121_delete_refuted.
Print Assumptions C122_set.
Print Assumptions C122_get.
Print Assumptions C122_set_attribute.
Print Assumptions C122_get_attribute.
Print Assumptions C122_round_trip.
Print Assumptions C122_attribute_round_trip.
Print Assumptions C122_others.
Print Assumptions C122_steps_get.
Print Assumptions C122_steps_set.
Print Assumptions C122_steps_round_trip.
Print Assumptions C122_refuted.
