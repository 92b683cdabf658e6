(** C52: lookups by reference do not depend on the lookup indexes. *)
From Coq Require Import String List NArith ZArith Bool Lia.
From Coq Require Import ZifyN ZifyNat ZifyBool.
From Verif Require Import Bytes Txt StringModel StringProofs StringProps NumModel LookupModel.
Import ListNotations.
Open Scope N_scope.

(** ** Specification *)
(** [a] is the first object of the list with a name equal to [ref], upper and lower case not told apart. *)
Definition same_name (k ref : list N) : Prop := make_lower k = make_lower ref.
Definition first_match {A} (l : list (list N * A)) (ref : list N) (a : A) : Prop :=
  exists p k q, l = p ++ (k, a) :: q /\ same_name k ref /\ forall x, In x p -> ~ same_name (fst x) ref.

(** ** Lemmas *)
Lemma txeq_same_name k ref : txeq k ref = true <-> same_name k ref.
Proof. apply txeq_lower. Qed.
Lemma linear_some {A} (l : list (list N * A)) ref a : linear l ref = Some a <-> first_match l ref a.
Proof.
  unfold linear. induction l as [|[k x] l IH]; cbn [find fst].
  - split; [discriminate|]. intros (p & k & q & E & _). destruct p; discriminate.
  - destruct (txeq k ref) eqn:E.
    + split.
      * intros [= <-]. exists [], k, l. split; [reflexivity|]. split; [apply txeq_same_name, E|intros ? []].
      * intros ([|[k' x'] p] & k0 & q & El & Hk & Hp); cbn in El; [injection El as <- <- <-; reflexivity|].
        injection El as <- <- El. destruct (Hp (k, x) (or_introl eq_refl)). apply txeq_same_name, E.
    + rewrite IH. split.
      * intros (p & k0 & q & -> & Hk & Hp). exists ((k, x) :: p), k0, q. split; [reflexivity|]. split; [exact Hk|].
        intros y [<-|Hy]; [|apply Hp, Hy]. cbn [fst]. intros D. apply txeq_same_name in D. congruence.
      * intros ([|y p] & k0 & q & El & Hk & Hp); cbn in El.
        { injection El as -> -> ->. apply txeq_same_name in Hk. congruence. }
        injection El as <- El. exists p, k0, q. split; [exact El|]. split; [exact Hk|]. intros z Hz. apply Hp. right. exact Hz.
Qed.
Section Hash.
Variable hash : list N -> N.
Variable n : N.
Notation hf := (tx_hash_no_case hash).
Lemma find_same {A} (m : umap A) x y : txeq x y = true -> umap_find hf n m x = umap_find hf n m y.
Proof.
  intros E. unfold umap_find. rewrite (C34_hash hash x y E).
  replace (find (fun p => txeq (fst p) x) (m (hf y mod n))) with (find (fun p => txeq (fst p) y) (m (hf y mod n))); [reflexivity|].
  induction (m (hf y mod n)) as [|p l IH]; [reflexivity|]. cbn [find].
  replace (txeq (fst p) x) with (txeq (fst p) y); [rewrite IH; reflexivity|].
  apply txeq_lower in E. destruct (txeq (fst p) y) eqn:E1, (txeq (fst p) x) eqn:E2; try reflexivity.
  - apply txeq_lower in E1. assert (txeq (fst p) x = true) by (apply txeq_lower; congruence). congruence.
  - apply txeq_lower in E2. assert (txeq (fst p) y = true) by (apply txeq_lower; congruence). congruence.
Qed.
Lemma fold_find {A} : forall (l : list (list N * A)) m ref,
  umap_find hf n (fold_left (fun m p => umap_emplace hf n m (fst p) (snd p)) l m) ref
  = match umap_find hf n m ref with Some x => Some x | None => linear l ref end.
Proof.
  induction l as [|[k a] l IH]; intros m ref; cbn [fold_left].
  - unfold linear. cbn [find]. destruct (umap_find hf n m ref); reflexivity.
  - rewrite IH. rewrite C34_container. cbn [fst snd]. unfold linear. cbn [find fst]. destruct (txeq k ref) eqn:E.
    + rewrite (find_same m k ref E). destruct (umap_find hf n m ref); reflexivity.
    + reflexivity.
Qed.
Lemma index_find {A} (l : list (list N * A)) ref : umap_find hf n (index hash n l) ref = linear l ref.
Proof. unfold index. rewrite fold_find. reflexivity. Qed.

(** ** C52: objects of the fixture *)
(** Wheels, models, emitters, filters, connectors, colour spaces, gamuts and DMX profiles. *)
Theorem C52_objects : forall A (l : list (list N * A)) ref use a, by_ref hash n use l ref = Some a <-> first_match l ref a.
Proof. intros A l ref [|] a; unfold by_ref; [rewrite index_find|]; apply linear_some. Qed.

Lemma linear_app {A} (l l' : list (list N * A)) ref : linear (l ++ l') ref = match linear l ref with Some a => Some a | None => linear l' ref end.
Proof.
  unfold linear. induction l as [|p l IH]; cbn [app find]; [reflexivity|]. destruct (txeq (fst p) ref); [reflexivity|exact IH].
Qed.
Context {P : Type}.
Fixpoint geo_size (g : @geo P) : nat := match g with Geo _ _ kids => S (list_sum (map geo_size kids)) end.
Lemma resolve_geo_kids ref name id (kids : list (@geo P)) : resolve_geo ref (Geo name id kids) = if txeq name ref then Some id else resolve_geos ref kids.
Proof.
  cbn [resolve_geo]. destruct (txeq name ref); [reflexivity|]. induction kids as [|x r IH]; [reflexivity|]. cbn [resolve_geos].
  destruct (resolve_geo ref x); [reflexivity|exact IH].
Qed.
Lemma resolve_flatten : forall k ref (l : list (@geo P)), (list_sum (map geo_size l) < k)%nat -> resolve_geos ref l = linear (flat_map flatten l) ref.
Proof.
  induction k as [|k IH]; intros ref l Hk; [lia|]. destruct l as [|[name id kids] r]; [reflexivity|].
  cbn [map geo_size list_sum fold_right] in Hk. fold (list_sum (map geo_size r)) in Hk. cbn [resolve_geos flat_map flatten]. rewrite resolve_geo_kids.
  cbn [app]. unfold linear at 1. cbn [find fst snd]. destruct (txeq name ref); [reflexivity|].
  fold (linear (flat_map flatten kids ++ flat_map flatten r) ref). rewrite linear_app. rewrite (IH ref kids) by lia. rewrite (IH ref r) by lia. reflexivity.
Qed.
(** Geometries: the first match, parents before children, in the order of the file. *)
Inductive in_order : list (@geo P) -> list (list N * P) -> Prop :=
| order_nil : in_order [] []
| order_cons name id kids r a b : in_order kids a -> in_order r b -> in_order (Geo name id kids :: r) ((name, id) :: a ++ b).
Lemma flatten_order : forall k l, (list_sum (map geo_size l) < k)%nat -> in_order l (flat_map flatten l).
Proof.
  induction k as [|k IH]; intros l Hk; [lia|]. destruct l as [|[name id kids] r]; [constructor|].
  cbn [map geo_size list_sum fold_right] in Hk. fold (list_sum (map geo_size r)) in Hk. cbn [flat_map flatten app]. constructor; apply IH; lia.
Qed.
Lemma order_unique l a : in_order l a -> forall b, in_order l b -> a = b.
Proof.
  induction 1 as [|name id kids r a b _ IH1 _ IH2]; intros c Hc; inversion Hc; subst; [reflexivity|].
  match goal with H1 : in_order kids ?x, H2 : in_order r ?y |- _ => rewrite (IH1 _ H1), (IH2 _ H2) end. reflexivity.
Qed.
Theorem C52_geometries : forall l order ref use i, in_order l order -> (geometry_by_ref hash n use l ref = Some i <-> first_match order ref i).
Proof.
  intros l order ref use i Ho. rewrite (order_unique _ _ Ho _ (flatten_order _ l (Nat.lt_succ_diag_r _))). rewrite <- linear_some.
  unfold geometry_by_ref. destruct use; [rewrite index_find|rewrite (resolve_flatten _ ref l (Nat.lt_succ_diag_r _))]; reflexivity.
Qed.
(** Sub-physical units: over all attributes. *)
Theorem C52_units : forall l ref use (i : P), unit_by_ref hash n use l ref = Some i <-> first_match (List.concat l) ref i.
Proof.
  intros l ref use i. rewrite <- linear_some. unfold unit_by_ref. destruct use; [rewrite index_find; reflexivity|].
  assert (E : (fix go l := match l with [] => None | us :: r => match linear us ref with Some u => Some u | None => go r end end) l = linear (List.concat l) ref); [|rewrite E; reflexivity].
  induction l as [|us r IH]; [reflexivity|]. cbn [List.concat]. rewrite linear_app, IH. reflexivity.
Qed.

(** ** C52: attributes *)
Definition agree (l : list (list N * @attr P)) (s s' : attrs) : Prop :=
  at_none s = at_none s' /\ at_list s = at_list s' /\ at_index s = index hash n l /\ at_index s' = index hash n l /\
  (at_list s = l \/ at_none s = Some Created /\ at_list s = l ++ [(no_feature, Created)]).
Lemma txeq_comm a b : txeq a b = txeq b a.
Proof.
  destruct (txeq a b) eqn:E, (txeq b a) eqn:F; try reflexivity.
  - apply txeq_lower in E. assert (txeq b a = true) by (apply txeq_lower; congruence). congruence.
  - apply txeq_lower in F. assert (txeq a b = true) by (apply txeq_lower; congruence). congruence.
Qed.
Lemma get_attribute_same l s s' ref : agree l s s' ->
  fst (get_attribute hash n s ref) = fst (get_attribute hash n s' ref) /\ agree l (snd (get_attribute hash n s ref)) (snd (get_attribute hash n s' ref)).
Proof.
  intros A. pose proof A as (En & El & Ei & Ei' & D).
  assert (C : at_none s = None -> agree l (create s) (create s')).
  { intros Hn. destruct D as [D|(D & _)]; [|congruence]. unfold agree, create. cbn. rewrite <- El, D. repeat split; try assumption. right. auto. }
  assert (Z : forall t, (at_list t = l \/ at_none t = Some Created /\ at_list t = l ++ [(no_feature, Created)]) -> txeq ref no_feature = false -> linear (at_list t) ref = linear l ref).
  { intros t [E|(_ & E)] F; rewrite E; [reflexivity|]. rewrite linear_app. destruct (linear l ref); [reflexivity|]. unfold linear. cbn [find fst]. rewrite txeq_comm, F. reflexivity. }
  unfold get_attribute. cbv zeta. rewrite <- En. destruct (txeq ref no_feature) eqn:F.
  - destruct (at_none s) eqn:Hn; cbn [fst snd]; (split; [reflexivity|]); [exact A|apply C; reflexivity].
  - assert (L : forall t, (t = s \/ t = s') -> (if at_use t then umap_find hf n (at_index t) ref else linear (at_list t) ref) = linear l ref).
    { intros t [->| ->]; destruct (at_use _); [rewrite Ei; apply index_find|apply Z; [exact D|reflexivity]|rewrite Ei'; apply index_find|apply Z; [|reflexivity]].
      rewrite <- En, <- El. exact D. }
    rewrite (L s) by auto. rewrite (L s') by auto. destruct (linear l ref); [split; [reflexivity|exact A]|].
    destruct (nlen ref =? 0); [|split; [reflexivity|exact A]]. destruct (at_none s) eqn:Hn; cbn [fst snd]; (split; [reflexivity|]); [exact A|apply C; reflexivity].
Qed.
(** Any sequence of lookups gives the same attributes, whatever the number of objects in the fixture. *)
Theorem C52_attributes : forall (l : list (list N * @attr P)) total total' refs,
  get_attributes hash n (build_attrs hash n l total) refs = get_attributes hash n (build_attrs hash n l total') refs.
Proof.
  intros l total total' refs.
  assert (G : forall refs s s', agree l s s' -> get_attributes hash n s refs = get_attributes hash n s' refs).
  { clear refs. induction refs as [|r refs IH]; intros s s' A; [reflexivity|]. cbn [get_attributes]. destruct (get_attribute_same l s s' r A) as (E & A').
    destruct (get_attribute hash n s r) as [a t], (get_attribute hash n s' r) as [a' t']. cbn [fst snd] in *. rewrite E, (IH _ _ A'). reflexivity. }
  apply G. unfold agree, build_attrs. cbn. repeat split; try reflexivity. left. reflexivity.
Qed.
(** A reference to a listed attribute is resolved to the first match. *)
Theorem C52_attribute_found : forall (l : list (list N * @attr P)) total ref a, ~ same_name ref no_feature -> first_match l ref a ->
  get_attributes hash n (build_attrs hash n l total) [ref] = [Some a].
Proof.
  intros l total ref a Hn Hf. cbn [get_attributes]. unfold get_attribute, build_attrs. cbn [at_use at_none at_index at_list].
  destruct (txeq ref no_feature) eqn:E; [destruct Hn; apply txeq_same_name, E|]. apply linear_some in Hf. rewrite index_find.
  destruct (128 <=? total); rewrite Hf; reflexivity.
Qed.

(** ** C52: channels and channel functions *)
(** After resolving: the first logical channel has an attribute and so has every function without a
    name. *)
Definition complete (c : @channel P) : Prop :=
  h_name c = [] /\ (forall l r, h_logical c = l :: r -> l_attr l <> None) /\
  forall l f, In l (h_logical c) -> In f (l_funcs l) -> f_name f = [] -> f_attr f <> None.
Lemma nlen_nil (l : list N) : (nlen l =? 0) = true <-> l = [].
Proof. unfold nlen. destruct l; cbn [length]; split; intros; try reflexivity; try discriminate; lia. Qed.
Lemma nlen_cons (l : list N) : l <> [] -> (nlen l =? 0) = false.
Proof. intros H. destruct (nlen l =? 0) eqn:E; [|reflexivity]. apply nlen_nil in E. contradiction. Qed.
Lemma snoc_not_nil (a b : list N) x : a ++ x :: b <> [].
Proof. destruct a; discriminate. Qed.
Lemma name_channel_name c : complete c -> channel_name (name_channel c) = channel_name c /\ exists t, channel_name c = Ok t.
Proof.
  intros (Hn & Hl & _). unfold channel_name, name_channel. rewrite Hn. cbn [nlen length N.of_nat]. rewrite N.eqb_refl.
  destruct (h_logical c) as [|l r] eqn:E.
  - split; [|eauto]. destruct (h_geo c) as [g|] eqn:Eg; [cbn [h_name h_logical h_geo first_attr map]|rewrite Hn, E, Eg]; reflexivity.
  - destruct (l_attr l) as [a|] eqn:Ea; [|destruct (Hl l r eq_refl Ea)]. split; [|eauto].
    destruct (h_geo c) as [g|] eqn:Eg.
    + cbn [h_name]. cbn [first_attr]. rewrite Ea. rewrite nlen_cons by apply snoc_not_nil. reflexivity.
    + rewrite Hn, E, Eg, Ea. reflexivity.
Qed.
Lemma func_named (c : @channel P) l l' : channel_name c = channel_name (name_channel c) -> l_attr l = l_attr l' -> forall fs i,
  (forall f, In f fs -> f_name f = [] -> f_attr f <> None) ->
  func_entries (name_channel c) l' i (name_funcs fs i) = func_entries c l i fs.
Proof.
  intros Hc Hl. induction fs as [|f fs IH]; intros i Hf; [reflexivity|]. cbn [name_funcs].
  assert (R : forall f' , f_name f' <> [] -> function_ref (name_channel c) l' i f' = (do n <- logical_ref c l; Ok (n ++ T"." ++ f_name f'))).
  { intros f' Hn. unfold function_ref, logical_ref. rewrite nlen_cons by exact Hn. rewrite <- Hc, <- Hl. reflexivity. }
  assert (IH' := IH (i + 1) ltac:(intros x Hx; apply Hf; right; exact Hx)).
  destruct (nlen (f_name f) =? 0) eqn:E.
  - apply nlen_nil in E. destruct (f_attr f) as [a|] eqn:Ea; [|destruct (Hf f (or_introl eq_refl) E Ea)].
    cbn [func_entries f_id]. rewrite R by apply snoc_not_nil. cbn [f_name]. rewrite IH'.
    unfold function_ref. rewrite E. cbn [nlen length N.of_nat N.eqb]. rewrite Ea. reflexivity.
  - cbn [func_entries]. rewrite IH'. assert (Hn : f_name f <> []) by (intros D; rewrite D in E; discriminate). rewrite (R f Hn). unfold function_ref. rewrite E. reflexivity.
Qed.
Lemma func_same (c : @channel P) l : channel_name c = channel_name (name_channel c) -> forall fs i, func_entries (name_channel c) l i fs = func_entries c l i fs.
Proof.
  intros Hc. induction fs as [|f fs IH]; intros i; [reflexivity|]. cbn [func_entries]. rewrite IH. unfold function_ref, logical_ref. rewrite Hc. reflexivity.
Qed.
Lemma log_named (c : @channel P) : channel_name c = channel_name (name_channel c) -> forall ls,
  (forall l f, In l ls -> In f (l_funcs l) -> f_name f = [] -> f_attr f <> None) ->
  log_entries (name_channel c) (map name_logical ls) = log_entries c ls /\ log_entries (name_channel c) ls = log_entries c ls.
Proof.
  intros Hc. induction ls as [|l ls IH]; intros Hf; [split; reflexivity|]. destruct (IH ltac:(intros l0 f0 H1 H2; apply (Hf l0 f0); [right; exact H1|exact H2])) as (I1 & I2).
  cbn [map log_entries]. rewrite I1, I2. split; [|rewrite (func_same c l Hc); reflexivity].
  unfold name_logical. destruct (l_attr l) as [a|] eqn:Ea; [|rewrite (func_same c l Hc); reflexivity]. cbn [l_funcs].
  rewrite (func_named c l (mkLog (Some a) (name_funcs (l_funcs l) 1)) Hc Ea); [reflexivity|]. intros f Hi. apply (Hf l f); [left; reflexivity|exact Hi].
Qed.
Lemma entries_named cs : Forall complete cs -> entries (map name_channel cs) = entries cs.
Proof.
  induction 1 as [|c cs Hc _ IH]; [reflexivity|]. cbn [map entries]. rewrite IH. destruct (name_channel_name c Hc) as (E & _). rewrite E.
  destruct Hc as (_ & _ & Hf).
  assert (El : log_entries (name_channel c) (h_logical (name_channel c)) = log_entries c (h_logical c)).
  { destruct (log_named c (eq_sym E) (h_logical c) Hf) as (I1 & I2). unfold name_channel at 2. destruct (h_geo c); [exact I1|exact I2]. }
  rewrite El. assert (Ei : h_id (name_channel c) = h_id c) by (unfold name_channel; destruct (h_geo c); reflexivity). rewrite Ei. reflexivity.
Qed.
Lemma bind_ok {A B} (x : res A) (f : A -> res B) y : bind x f = Ok y -> exists a, x = Ok a /\ f a = Ok y.
Proof. destruct x; cbn; intros; try discriminate. eauto. Qed.
Lemma linear_channel_ok : forall (cs : list (@channel P)) e ref, entries cs = Ok e -> linear_channel cs ref = Ok (linear (fst e) ref).
Proof.
  induction cs as [|c cs IH]; intros e ref H; cbn [entries] in H; [injection H as <-; reflexivity|].
  apply bind_ok in H. destruct H as (nm & En & H). apply bind_ok in H. destruct H as (fs & Ef & H). apply bind_ok in H. destruct H as (e' & Ee & H). injection H as <-.
  cbn [linear_channel fst]. rewrite En. cbn [bind]. unfold linear. cbn [find fst snd]. destruct (txeq nm ref); [reflexivity|]. apply IH, Ee.
Qed.
Lemma linear_funcs_ok (c : @channel P) l ref : forall fs i e, func_entries c l i fs = Ok e -> linear_funcs c l i fs ref = Ok (linear e ref).
Proof.
  induction fs as [|f fs IH]; intros i e H; cbn [func_entries] in H; [injection H as <-; reflexivity|].
  apply bind_ok in H. destruct H as (nm & En & H). apply bind_ok in H. destruct H as (e' & Ee & H). injection H as <-.
  cbn [linear_funcs]. rewrite En. cbn [bind]. unfold linear. cbn [find fst snd]. destruct (txeq nm ref); [reflexivity|]. apply IH, Ee.
Qed.
Lemma linear_logs_ok (c : @channel P) ref : forall ls e, log_entries c ls = Ok e -> linear_logs c ls ref = Ok (linear e ref).
Proof.
  induction ls as [|l ls IH]; intros e H; cbn [log_entries] in H; [injection H as <-; reflexivity|].
  apply bind_ok in H. destruct H as (a & Ea & H). apply bind_ok in H. destruct H as (e' & Ee & H). injection H as <-.
  cbn [linear_logs]. rewrite (linear_funcs_ok _ _ ref _ _ _ Ea). cbn [bind]. rewrite linear_app. destruct (linear a ref); [reflexivity|]. apply IH, Ee.
Qed.
Lemma linear_function_ok : forall (cs : list (@channel P)) e ref, entries cs = Ok e -> linear_function cs ref = Ok (linear (snd e) ref).
Proof.
  induction cs as [|c cs IH]; intros e ref H; cbn [entries] in H; [injection H as <-; reflexivity|].
  apply bind_ok in H. destruct H as (nm & En & H). apply bind_ok in H. destruct H as (fs & Ef & H). apply bind_ok in H. destruct H as (e' & Ee & H). injection H as <-.
  cbn [linear_function snd]. rewrite (linear_logs_ok _ ref _ _ Ef). cbn [bind]. rewrite linear_app. destruct (linear fs ref); [reflexivity|]. apply IH, Ee.
Qed.
Lemma entries_ok cs : Forall complete cs -> exists e, entries cs = Ok e.
Proof.
  induction 1 as [|c cs Hc _ (e & IH)]; [eexists; reflexivity|]. cbn [entries]. destruct (name_channel_name c Hc) as (_ & t & E). rewrite E, IH.
  assert (F : forall l fs i, exists x, func_entries c l i fs = Ok x).
  { intros l. induction fs as [|f fs IHf]; intros i; [eexists; reflexivity|]. cbn [func_entries]. unfold function_ref, logical_ref. rewrite E. cbn [bind].
    destruct (IHf (i + 1)) as (x & ->). cbn [bind]. eauto. }
  assert (G : forall ls, exists x, log_entries c ls = Ok x).
  { induction ls as [|l ls (x & IHl)]; [eexists; reflexivity|]. cbn [log_entries]. destruct (F l (l_funcs l) 1) as (y & ->). rewrite IHl. cbn [bind]. eauto. }
  destruct (G (h_logical c)) as (x & ->). cbn [bind]. eauto.
Qed.
(** The names under which channels and functions are found. *)
Definition channel_key (c : @channel P) (k : list N) : Prop :=
  k = text_or_empty (h_geo c) ++ T"_" ++ match h_logical c with [] => [] | l :: _ => text_or_empty (l_attr l) end.
Theorem C52_channel_partial : forall cs ref, Forall complete cs ->
  exists r, channel_by_ref hash n true cs ref = Ok r /\ channel_by_ref hash n false cs ref = Ok r /\
    forall i, r = Some i <-> exists l, Forall2 (fun c p => channel_key c (fst p) /\ snd p = h_id c) cs l /\ first_match l ref i.
Proof.
  intros cs ref Hc. destruct (entries_ok cs Hc) as (e & He). exists (linear (fst e) ref). split; [|split].
  - unfold channel_by_ref. rewrite He. cbn [bind]. rewrite index_find. reflexivity.
  - unfold channel_by_ref. apply linear_channel_ok. rewrite entries_named; assumption.
  - assert (F : Forall2 (fun c p => channel_key c (fst p) /\ snd p = h_id c) cs (fst e)).
    { clear ref. revert e He. induction Hc as [|c cs Hc _ IH]; intros e He; cbn [entries] in He; [injection He as <-; constructor|].
      apply bind_ok in He. destruct He as (nm & En & He). apply bind_ok in He. destruct He as (fs & _ & He). apply bind_ok in He. destruct He as (e' & Ee & He). injection He as <-.
      cbn [fst]. constructor; [|apply IH, Ee]. cbn [fst snd]. split; [|reflexivity]. destruct Hc as (Hn & Hl & _). unfold channel_name in En. rewrite Hn in En. cbn [nlen length N.of_nat N.eqb] in En.
      unfold channel_key. destruct (h_logical c) as [|l r]; [injection En as <-; rewrite app_nil_r; reflexivity|]. destruct (l_attr l) as [a|]; [injection En as <-; reflexivity|discriminate]. }
    intros i. rewrite linear_some. split; [intros H; exists (fst e); auto|]. intros (l & Fl & H).
    assert (l = fst e); [|subst l; exact H]. revert F Fl. generalize (fst e). clear. intros l0 F Fl. revert l Fl. induction F as [|c p cs l0 (Hk & Hi) _ IH]; intros l Fl; inversion Fl; subst; [reflexivity|].
    f_equal; [|apply IH; assumption]. match goal with H : channel_key c (fst ?y) /\ _ |- _ => destruct H as (Hk' & Hi'); destruct y; cbn in * end. destruct p; cbn in *. unfold channel_key in *. congruence.
Qed.
(** The text of a channel, and the functions of a mode with the names they are found under. *)
Definition channel_text (c : @channel P) : list N :=
  text_or_empty (h_geo c) ++ T"_" ++ match h_logical c with [] => [] | l :: _ => text_or_empty (l_attr l) end.
Definition own_name (i : nat) (f : @func P) : list N :=
  match f_name f with [] => text_or_empty (f_attr f) ++ T" " ++ itoa (Z.of_nat i) | t => t end.
Definition function_keys (cs : list (@channel P)) : list (list N * P) :=
  flat_map (fun c => flat_map (fun l => map (fun p => (channel_text c ++ T"." ++ text_or_empty (l_attr l) ++ T"." ++ own_name (fst p) (snd p), f_id (snd p)))
    (combine (seq 1 (List.length (l_funcs l))) (l_funcs l))) (h_logical c)) cs.
Lemma channel_text_ok c t : complete c -> channel_name c = Ok t -> t = channel_text c.
Proof.
  intros (Hn & Hl & _). unfold channel_name, channel_text. rewrite Hn. cbn [nlen length N.of_nat N.eqb].
  destruct (h_logical c) as [|l r]; [intros [= <-]; rewrite app_nil_r; reflexivity|]. destruct (l_attr l) as [a|]; [intros [= <-]; reflexivity|discriminate].
Qed.
Lemma func_keys_ok c l : complete c -> forall fs i e, (forall f, In f fs -> f_name f = [] -> f_attr f <> None) -> func_entries c l (N.of_nat i) fs = Ok e ->
  e = map (fun p => (channel_text c ++ T"." ++ text_or_empty (l_attr l) ++ T"." ++ own_name (fst p) (snd p), f_id (snd p))) (combine (seq i (List.length fs)) fs).
Proof.
  intros Hc. induction fs as [|f fs IH]; intros i e Hf H; cbn [func_entries] in H; [injection H as <-; reflexivity|].
  apply bind_ok in H. destruct H as (nm & En & H). apply bind_ok in H. destruct H as (e' & Ee & H). injection H as <-.
  cbn [List.length seq combine map fst snd]. f_equal; [|apply IH; [intros x Hx; apply Hf; right; exact Hx|]; replace (N.of_nat (S i)) with (N.of_nat i + 1) by lia; exact Ee].
  f_equal. unfold function_ref, logical_ref in En. apply bind_ok in En. destruct En as (t & Et & En). apply bind_ok in Et. destruct Et as (t0 & E0 & Et). injection Et as <-. injection En as <-.
  rewrite (channel_text_ok c t0 Hc E0).
  enough (Eo : (if nlen (f_name f) =? 0 then match f_attr f with Some a => numbered a (N.of_nat i) | None => [] end else f_name f) = own_name i f) by (rewrite Eo, <- app_assoc; reflexivity).
  unfold own_name. destruct (nlen (f_name f) =? 0) eqn:E.
  - apply nlen_nil in E. rewrite E. destruct (f_attr f) as [a|] eqn:Ea; [|destruct (Hf f (or_introl eq_refl) E Ea)]. unfold numbered. rewrite nat_N_Z. reflexivity.
  - destruct (f_name f); [discriminate|reflexivity].
Qed.
Lemma log_keys_ok c : complete c -> forall ls e, (forall l f, In l ls -> In f (l_funcs l) -> f_name f = [] -> f_attr f <> None) -> log_entries c ls = Ok e ->
  e = flat_map (fun l => map (fun p => (channel_text c ++ T"." ++ text_or_empty (l_attr l) ++ T"." ++ own_name (fst p) (snd p), f_id (snd p)))
    (combine (seq 1 (List.length (l_funcs l))) (l_funcs l))) ls.
Proof.
  intros Hc. induction ls as [|l ls IH]; intros e Hf H; cbn [log_entries] in H; [injection H as <-; reflexivity|].
  apply bind_ok in H. destruct H as (a & Ea & H). apply bind_ok in H. destruct H as (e' & Ee & H). injection H as <-. cbn [flat_map].
  f_equal; [|apply IH; [intros l0 f0 H1 H2; apply (Hf l0 f0); [right; exact H1|exact H2]|exact Ee]].
  apply (func_keys_ok c l Hc (l_funcs l) 1%nat a); [|exact Ea]. intros f Hi. apply (Hf l f); [left; reflexivity|exact Hi].
Qed.
Lemma keys_ok cs e : Forall complete cs -> entries cs = Ok e -> snd e = function_keys cs.
Proof.
  intros Hc. revert e. induction Hc as [|c cs Hc _ IH]; intros e He; cbn [entries] in He; [injection He as <-; reflexivity|].
  apply bind_ok in He. destruct He as (nm & _ & He). apply bind_ok in He. destruct He as (fs & Ef & He). apply bind_ok in He. destruct He as (e' & Ee & He). injection He as <-.
  cbn [snd]. unfold function_keys. cbn [flat_map]. f_equal; [|apply IH, Ee]. apply log_keys_ok; [exact Hc|apply Hc|exact Ef].
Qed.
Theorem C52_function_partial : forall cs ref, Forall complete cs ->
  exists r, function_by_ref hash n true cs ref = Ok r /\ function_by_ref hash n false cs ref = Ok r /\
    forall i, r = Some i <-> first_match (function_keys cs) ref i.
Proof.
  intros cs ref Hc. destruct (entries_ok cs Hc) as (e & He). exists (linear (snd e) ref).
  assert (E : linear_function (map name_channel cs) ref = Ok (linear (snd e) ref)) by (apply linear_function_ok; rewrite entries_named; assumption).
  split; [|split; [exact E|]].
  - unfold function_by_ref. rewrite He. cbn [bind]. destruct (snd e) as [|p q] eqn:Es; [exact E|]. rewrite index_find. reflexivity.
  - intros i. rewrite linear_some, (keys_ok cs e Hc He). reflexivity.
Qed.
End Hash.

(** ** Cases *)
Definition pad (k : nat) : list (@channel N) := repeat (mkCh [] (Some (T"Other")) [] 99) k.
(** A function without name and attribute is not counted when the names are generated, but it is counted
    in the names used for the index. *)
Definition odd_channel : @channel N :=
  mkCh [] (Some (T"Head")) [mkLog (Some (T"Pan")) [mkFunc [] None 1; mkFunc [] (Some (T"Pan")) 2]] 1.
Theorem C52_number_refuted : exists c ref, forall hash n,
  indexed (c :: pad 63) = true /\ function_by_ref hash n (indexed (c :: pad 63)) (c :: pad 63) ref = Ok (Some 2) /\
  indexed (c :: pad 62) = false /\ function_by_ref hash n (indexed (c :: pad 62)) (c :: pad 62) ref = Ok None.
Proof.
  exists odd_channel, (T"Head_Pan.Pan.Pan 2"). intros hash n. split; [vm_compute; reflexivity|]. split.
  - change (indexed (odd_channel :: pad 63)) with true. unfold function_by_ref. cbv iota.
    assert (E : entries (odd_channel :: pad 63) = Ok ((T"Head_Pan", 1) :: repeat (T"Other_", 99) 63, [(T"Head_Pan.Pan.", 1); (T"Head_Pan.Pan.Pan 2", 2)])) by (vm_compute; reflexivity).
    rewrite E. cbn [bind snd]. rewrite index_find. vm_compute. reflexivity.
  - split; vm_compute; reflexivity.
Qed.
(** With an index, a channel whose first logical channel has no attribute is undefined behaviour; without
    one it is not. *)
Definition bare_channel : @channel N :=
  mkCh [] (Some (T"Head")) [mkLog None []; mkLog (Some (T"Pan")) [mkFunc (T"Move") (Some (T"Pan")) 2]] 1.
Theorem C52_null_refuted : exists c ref, forall hash n,
  channel_by_ref hash n (indexed (c :: pad 63)) (c :: pad 63) ref = UB /\
  channel_by_ref hash n (indexed (c :: pad 62)) (c :: pad 62) ref = Ok (Some 1).
Proof. exists bare_channel, (T"Head_Pan"). intros hash n. split; vm_compute; reflexivity. Qed.
Definition good_channel : @channel N :=
  mkCh [] (Some (T"Head")) [mkLog (Some (T"Pan")) [mkFunc (T"Move") (Some (T"Pan")) 5; mkFunc [] (Some (T"Pan")) 6]] 1.
Example C52_case : Forall complete (good_channel :: pad 63) /\ forall hash n,
  function_by_ref hash n false (good_channel :: pad 63) (T"head_PAN.pan.Pan 2") = Ok (Some 6) /\
  channel_by_ref hash n false (good_channel :: pad 63) (T"head_PAN") = Ok (Some 1).
Proof.
  split; [|intros hash n; split; vm_compute; reflexivity]. constructor.
  - split; [reflexivity|]. split; [intros l r [= <- <-]; discriminate|]. intros l f [<-|[]] [<-|[<-|[]]]; cbn; intros _; discriminate.
  - apply Forall_forall. intros c Hc. apply repeat_spec in Hc. subst c. split; [reflexivity|]. split; [intros l r [=]|intros l f []].
Qed.
Example C52_case_objects : first_match [(T"Gobo", 1); (T"gobo", 2)] (T"GOBO") 1 /\
  in_order [Geo (T"Base") 1 [Geo (T"Yoke") 2 []]; Geo (T"Yoke") 3 []] [(T"Base", 1); (T"Yoke", 2); (T"Yoke", 3)].
Proof.
  split.
  - exists [], (T"Gobo"), [(T"gobo", 2)]. split; [reflexivity|]. split; [reflexivity|intros ? []].
  - exact (order_cons (T"Base") 1 _ _ [(T"Yoke", 2)] [(T"Yoke", 3)] (order_cons (T"Yoke") 2 _ _ [] [] order_nil order_nil) (order_cons (T"Yoke") 3 _ _ [] [] order_nil order_nil)).
Qed.
Print Assumptions C52_objects.
Print Assumptions C52_geometries.
Print Assumptions C52_units.
Print Assumptions C52_attributes.
Print Assumptions C52_attribute_found.
Print Assumptions C52_channel_partial.
Print Assumptions C52_function_partial.
Print Assumptions C52_number_refuted.
Print Assumptions C52_null_refuted.
