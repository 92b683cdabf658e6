(** C53: duplicate geometry and attribute pairs.  C54: overlapping channel functions.  C74: main attributes. *)
From Coq Require Import String List NArith ZArith Bool Lia.
From Coq Require Import ZifyN ZifyNat ZifyBool.
From Verif Require Import Bytes Txt StringModel StringProofs StringProps NumModel AttrModel AttrProps LookupModel LookupProps CheckModel.
Import ListNotations.
Open Scope N_scope.

(** ** C53: specification *)
(** The logical channels of a mode in order: the name of the geometry of the channel and the name of the attribute. *)
Definition logicals (mode : list chan_names) : list (option (list N) * option (list N)) :=
  flat_map (fun c => map (fun a => (fst c, a)) (snd c)) mode.
(** The attribute may be used more than once with the same geometry. *)
Definition may_repeat (t : list N) : Prop := same_name t (T"NoFeature") \/ same_name t (T"Dummy").
(** Logical channel [k] repeats the pair of an earlier one. *)
Definition repeats (mode : list chan_names) (k : nat) : Prop :=
  exists g t, nth_error (logicals mode) k = Some (Some g, Some t) /\ ~ may_repeat t
    /\ exists j g' t', (j < k)%nat /\ nth_error (logicals mode) j = Some (Some g', Some t') /\ same_name g g' /\ same_name t t'.
Definition bar : N := 124.
(** Every channel has a geometry, no attribute has an empty name. *)
Definition named (mode : list chan_names) : Prop :=
  forall c, In c mode -> fst c <> None /\ ~ In (Some []) (snd c).
(** The names of geometries do not contain '|'. *)
Definition plain (mode : list chan_names) : Prop := forall c g, In c mode -> fst c = Some g -> ~ In bar g.

(** ** C53: lemmas *)
Lemma exempt_iff t : exempt t = true <-> may_repeat t.
Proof. unfold exempt, may_repeat. rewrite orb_true_iff, !txeq_same_name. reflexivity. Qed.
Fixpoint flags {A} (f : list A -> A -> bool) (prev l : list A) : list bool :=
  match l with [] => [] | x :: r => f prev x :: flags f (prev ++ [x]) r end.
Lemma flags_app {A} (f : list A -> A -> bool) l : forall prev r, flags f prev (l ++ r) = flags f prev l ++ flags f (prev ++ l) r.
Proof.
  induction l as [|x l IH]; intros prev r; cbn [app flags]; [now rewrite app_nil_r|]. rewrite IH, <- app_assoc. reflexivity.
Qed.
Lemma flags_nth {A} (f : list A -> A -> bool) l : forall prev k,
  nth_error (flags f prev l) k = match nth_error l k with Some x => Some (f (prev ++ firstn k l) x) | None => None end.
Proof.
  induction l as [|x l IH]; intros prev [|k]; cbn [flags nth_error firstn]; try reflexivity; [now rewrite app_nil_r|].
  rewrite IH, <- app_assoc. reflexivity.
Qed.
Lemma flags_ext {A} (f g : list A -> A -> bool) l : forall prev, (forall p x q, l = p ++ x :: q -> f (prev ++ p) x = g (prev ++ p) x) ->
  flags f prev l = flags g prev l.
Proof.
  induction l as [|x l IH]; intros prev H; cbn [flags]; [reflexivity|]. f_equal.
  - specialize (H [] x l eq_refl). now rewrite app_nil_r in H.
  - apply IH. intros p y q ->. specialize (H (x :: p) y q eq_refl). now rewrite <- app_assoc.
Qed.
Lemma in_firstn {A} (l : list A) k x : In x (firstn k l) <-> exists j, (j < k)%nat /\ nth_error l j = Some x.
Proof.
  revert k. induction l as [|y l IH]; intros [|k]; cbn [firstn In].
  - split; [tauto|]. intros (j & Hj & _). lia.
  - split; [tauto|]. intros (j & _ & Hj). destruct j; discriminate.
  - split; [tauto|]. intros (j & Hj & _). lia.
  - rewrite IH. split.
    + intros [->|(j & Hj & E)]; [exists 0%nat|exists (S j)]; (split; [lia|assumption || reflexivity]).
    + intros ([|j] & Hj & E); cbn [nth_error] in E; [left; congruence|right; exists j; split; [lia|assumption]].
Qed.
(** The comparison of the loop, and of the set. *)
Definition f_linear (prev : list (option (list N) * option (list N))) (x : option (list N) * option (list N)) : bool :=
  match x with
  | (_, None) => false
  | (g, Some t) => negb (exempt t) && existsb (fun y => txeq (text_or_empty g) (text_or_empty (fst y)) && txeq t (text_or_empty (snd y))) prev
  end.
Definition f_set (prev : list (option (list N) * option (list N))) (x : option (list N) * option (list N)) : bool :=
  match x with
  | (_, None) => false
  | (g, Some t) => negb (exempt t) && existsb (fun y => match snd y with
       | Some t' => negb (exempt t') && txeq (pair_key g t) (pair_key (fst y) t') | None => false end) prev
  end.
Lemma scan_app chs rest g t : (forall c, In c chs -> fst c <> None) ->
  scan_linear (chs ++ rest) g t
  = existsb (fun y => txeq g (text_or_empty (fst y)) && txeq t (text_or_empty (snd y))) (logicals chs) || scan_linear rest g t.
Proof.
  induction chs as [|[[g'|] attrs] chs IH]; intros H; cbn [app scan_linear logicals flat_map].
  - reflexivity.
  - rewrite existsb_app. cbn [fst snd]. fold (logicals chs).
    assert (E : existsb (fun y => txeq g (text_or_empty (fst y)) && txeq t (text_or_empty (snd y))) (map (fun a => (Some g', a)) attrs)
              = existsb (fun x => txeq g g' && txeq t (text_or_empty x)) attrs).
    { clear. induction attrs as [|a r IH]; [reflexivity|]. cbn [map existsb fst snd text_or_empty]. now rewrite IH. }
    rewrite E. destruct (existsb (fun x => txeq g g' && txeq t (text_or_empty x)) attrs); [reflexivity|]. cbn [orb]. apply IH. intros c Hc. apply H. now right.
  - destruct (H (None, attrs) (or_introl eq_refl)). reflexivity.
Qed.
Lemma scan_unresolved r g t : scan_linear (map unresolved r) g t = false.
Proof. destruct r as [|[g' a] r]; reflexivity. Qed.
Lemma txeq_nil t : t <> [] -> txeq t [] = false.
Proof.
  intros H. destruct (txeq t []) eqn:E; [|reflexivity]. apply txeq_same_name in E. destruct t; [congruence|discriminate E].
Qed.
Lemma logical_linear_flags done g r : (forall c, In c done -> fst c <> None) -> forall todo cur, ~ In (Some []) todo ->
  logical_linear done (Some g) cur todo (map unresolved r)
  = flags f_linear (logicals done ++ map (fun a => (Some g, a)) cur) (map (fun a => (Some g, a)) todo).
Proof.
  intros Hd. induction todo as [|a todo IH]; intros cur Hn; cbn [logical_linear flags map]; [reflexivity|]. f_equal.
  - destruct a as [t|]; [|reflexivity]. cbn [f_linear]. f_equal.
    rewrite scan_app by exact Hd. rewrite existsb_app. f_equal. cbn [scan_linear text_or_empty].
    rewrite existsb_app. rewrite (scan_unresolved r).
    assert (Et : t <> []) by (intros ->; apply Hn; now left).
    assert (E0 : existsb (fun x => txeq g g && txeq t (text_or_empty x)) (None :: map (fun _ : option (list N) => None) todo) = false).
    { cbn [existsb text_or_empty]. rewrite (txeq_nil t Et), andb_false_r. cbn [orb].
      clear -Et. induction todo as [|x l IH]; [reflexivity|]. cbn [map existsb text_or_empty]. now rewrite (txeq_nil t Et), andb_false_r. }
    rewrite E0, orb_false_r.
    assert (E1 : existsb (fun y => txeq g (text_or_empty (fst y)) && txeq t (text_or_empty (snd y))) (map (fun a => (Some g, a)) cur)
              = existsb (fun x => txeq g g && txeq t (text_or_empty x)) cur).
    { clear. induction cur as [|x l IH]; [reflexivity|]. cbn [map existsb fst snd text_or_empty]. now rewrite IH. }
    rewrite E1. now destruct (existsb (fun x => txeq g g && txeq t (text_or_empty x)) cur).
  - rewrite IH by (intros H; apply Hn; now right). rewrite map_app, app_assoc. reflexivity.
Qed.
Lemma logicals_app a b : logicals (a ++ b) = logicals a ++ logicals b.
Proof. unfold logicals. apply flat_map_app. Qed.
Lemma mode_linear_flags mode : forall done, (forall c, In c done -> fst c <> None) -> named mode ->
  mode_linear done mode = flags f_linear (logicals done) (logicals mode).
Proof.
  induction mode as [|[[g|] attrs] r IH]; intros done Hd Hm; cbn [mode_linear].
  - reflexivity.
  - change (logicals ((Some g, attrs) :: r)) with (map (fun a => (Some g, a)) attrs ++ logicals r). rewrite flags_app.
    destruct (Hm _ (or_introl eq_refl)) as (_ & Hn). cbn [fst snd] in *.
    rewrite logical_linear_flags by assumption. cbn [map]. rewrite app_nil_r. f_equal.
    rewrite IH.
    + rewrite logicals_app. cbn [logicals flat_map fst snd]. now rewrite app_nil_r.
    + intros c Hc. apply in_app_or in Hc as [Hc|[<-|[]]]; [now apply Hd|discriminate].
    + intros c Hc. apply Hm. now right.
  - destruct (Hm _ (or_introl eq_refl)) as (H & _). now destruct H.
Qed.
Section Hash.
Variable h : list N -> N.
Variable n : N.
(** What is in the set after the logical channels [prev]. *)
Definition keys_of (prev : list (option (list N) * option (list N))) (k : list N) : Prop :=
  exists g t, In (g, Some t) prev /\ exempt t = false /\ same k (pair_key g t).
Lemma logical_set_flags g todo : forall seen prev, holds h n seen (keys_of prev) ->
  fst (logical_set h n seen g todo) = flags f_set prev (map (fun a => (g, a)) todo)
  /\ holds h n (snd (logical_set h n seen g todo)) (keys_of (prev ++ map (fun a => (g, a)) todo)).
Proof.
  induction todo as [|a todo IH]; intros seen prev H; cbn [logical_set flags map].
  - split; [reflexivity|]. now rewrite app_nil_r.
  - assert (skip : forall a', (forall k, keys_of (prev ++ [(g, a')]) k <-> keys_of prev k) ->
      holds h n seen (keys_of (prev ++ [(g, a')]))) by (intros a' E k; rewrite (H k); symmetry; apply E).
    destruct a as [t|].
    + destruct (exempt t) eqn:E.
      * destruct (IH seen (prev ++ [(g, Some t)])) as (I1 & I2).
        { apply skip. intros k. unfold keys_of. split.
          - intros (g' & t' & Hin & Ee & S). apply in_app_or in Hin as [Hin|[[= <- <-]|[]]]; [eauto 6|congruence].
          - intros (g' & t' & Hin & Ee & S). exists g', t'. split; [apply in_or_app; now left|auto]. }
        destruct (logical_set h n seen g todo) as (l, s). cbn [fst snd] in *. cbn [f_set]. rewrite E. cbn [negb andb].
        split; [now f_equal|]. rewrite <- app_assoc in I2. exact I2.
      * destruct (IH (uset_insert h n seen (pair_key g t)) (prev ++ [(g, Some t)])) as (I1 & I2).
        { eapply holds_ext; [|apply insert_holds, H]. intros k. unfold keys_of. split.
          - intros [(g' & t' & Hin & Ee & S)|S]; [exists g', t'; split; [apply in_or_app; now left|auto]|].
            exists g, t. split; [apply in_or_app; right; now left|auto].
          - intros (g' & t' & Hin & Ee & S). apply in_app_or in Hin as [Hin|[[= <- <-]|[]]]; [left; eauto 6|now right]. }
        destruct (logical_set h n (uset_insert h n seen (pair_key g t)) g todo) as (l, s). cbn [fst snd] in *. cbn [f_set]. rewrite E. cbn [negb andb].
        split; [|rewrite <- app_assoc in I2; exact I2]. f_equal; [|exact I1].
        apply eq_true_iff_eq. rewrite (H (pair_key g t)), existsb_exists. unfold keys_of. split.
        -- intros (g' & t' & Hin & Ee & S). exists (g', Some t'). split; [exact Hin|]. cbn [snd fst]. rewrite Ee. cbn [negb andb]. now apply txeq_same.
        -- intros ([g' [t'|]] & Hin & C); cbn [snd fst] in C; [|discriminate]. apply andb_true_iff in C as (C1 & C2).
           exists g', t'. split; [exact Hin|]. split; [now apply negb_true_iff|now apply txeq_same].
    + destruct (IH seen (prev ++ [(g, None)])) as (I1 & I2).
      { apply skip. intros k. unfold keys_of. split.
        - intros (g' & t' & Hin & Ee & S). apply in_app_or in Hin as [Hin|[[=]|[]]]. eauto 6.
        - intros (g' & t' & Hin & Ee & S). exists g', t'. split; [apply in_or_app; now left|auto]. }
      destruct (logical_set h n seen g todo) as (l, s). cbn [fst snd] in *. cbn [f_set].
      split; [now f_equal|]. rewrite <- app_assoc in I2. exact I2.
Qed.
Lemma mode_set_flags mode : forall seen prev, holds h n seen (keys_of prev) ->
  mode_set h n seen mode = flags f_set prev (logicals mode).
Proof.
  induction mode as [|[g attrs] r IH]; intros seen prev H; cbn [mode_set]; [reflexivity|].
  change (logicals ((g, attrs) :: r)) with (map (fun a => (g, a)) attrs ++ logicals r). rewrite flags_app. cbn [fst snd].
  destruct (logical_set_flags g attrs seen prev H) as (I1 & I2).
  destruct (logical_set h n seen g attrs) as (l, s). cbn [fst snd] in *. now rewrite I1, (IH _ _ I2).
Qed.
Lemma empty_holds : holds h n (fun _ => []) (keys_of []).
Proof. intros k. unfold uset_count. cbn [existsb]. split; [discriminate|]. intros (g & t & [] & _). Qed.
End Hash.
(** Two keys agree exactly when both names do. *)
Lemma bar_split (a b a' b' : list N) : ~ In bar a -> ~ In bar a' -> a ++ bar :: b = a' ++ bar :: b' -> a = a' /\ b = b'.
Proof.
  revert a'. induction a as [|x a IH]; intros [|x' a'] Ha Ha' E; cbn [app] in E.
  - injection E as E. auto.
  - injection E as E1 E. destruct Ha'. left. symmetry. exact E1.
  - injection E as E1 E. destruct Ha. left. exact E1.
  - injection E as -> E. destruct (IH a') as (-> & ->); auto; [intros H; apply Ha; now right|intros H; apply Ha'; now right].
Qed.
Lemma lower_bar g : ~ In bar g -> ~ In bar (make_lower g).
Proof.
  intros H Hin. apply H. unfold make_lower in Hin. apply in_map_iff in Hin as (x & E & Hx).
  replace bar with x; [exact Hx|]. unfold to_lower, bar in *. destruct ((65 <=? x) && (x <=? 90))%bool eqn:C in E; lia.
Qed.
Lemma lower_idem x : make_lower (make_lower x) = make_lower x.
Proof.
  unfold make_lower. rewrite map_map. apply map_ext. intros c. unfold to_lower.
  destruct ((65 <=? c) && (c <=? 90))%bool eqn:C; [|now rewrite C]. destruct ((65 <=? c + 32) && (c + 32 <=? 90))%bool eqn:D; lia.
Qed.
Lemma key_eq g t g' t' : ~ In bar (text_or_empty g) -> ~ In bar (text_or_empty g') ->
  txeq (pair_key g t) (pair_key g' t') = txeq (text_or_empty g) (text_or_empty g') && txeq t t'.
Proof.
  intros H H'. apply eq_true_iff_eq. rewrite andb_true_iff, !txeq_same_name. unfold same_name, pair_key.
  rewrite !lower_idem. unfold make_lower. rewrite !map_app. cbn [map app].
  change (map to_lower (T"|")) with [bar]. cbn [app]. split.
  - intros E. apply bar_split in E; [exact E| |]; now apply lower_bar.
  - intros (-> & ->). reflexivity.
Qed.

(** ** C53: theorems *)
(** For every mode, number of channels and hash: exactly the repeated pairs are reported, and both ways of
    searching agree. *)
Lemma linear_repeats mode : named mode -> forall k, nth_error (mode_linear [] mode) k = Some true <-> repeats mode k.
Proof.
  intros Hm k. rewrite mode_linear_flags by (exact Hm || intros ? []). cbn [logicals flat_map]. rewrite flags_nth. cbn [app].
  assert (Hg : forall g a, In (g, a) (logicals mode) -> exists g0, g = Some g0 /\ a <> Some []).
  { intros g a Hin. unfold logicals in Hin. apply in_flat_map in Hin as (c & Hc & Hin). apply in_map_iff in Hin as (a' & [= <- <-] & Ha).
    destruct (Hm c Hc) as (H1 & H2). destruct (fst c) as [g0|]; [|congruence]. exists g0. split; [reflexivity|]. intros ->. now apply H2. }
  unfold repeats. split.
  - destruct (nth_error (logicals mode) k) as [[g [t|]]|] eqn:E; [|discriminate..].
    intros [= F]. apply andb_true_iff in F as (F1 & F2). apply existsb_exists in F2 as ([g' a'] & Hin & C).
    apply andb_true_iff in C as (C1 & C2). cbn [fst snd] in *.
    destruct (Hg g (Some t) (nth_error_In _ _ E)) as (g0 & -> & Ht).
    apply in_firstn in Hin as (j & Hj & Ej). destruct (Hg g' a' (nth_error_In _ _ Ej)) as (g1 & -> & Ha).
    exists g0, t. split; [reflexivity|]. split.
    + intros M. apply exempt_iff in M. rewrite M in F1. discriminate.
    + destruct a' as [t'|].
      * exists j, g1, t'. split; [exact Hj|]. split; [exact Ej|]. split; now apply txeq_same_name.
      * cbn [text_or_empty] in C2. rewrite txeq_nil in C2 by congruence. discriminate.
  - intros (g & t & E & Hne & j & g' & t' & Hj & Ej & S1 & S2). rewrite E. cbn [f_linear]. f_equal. apply andb_true_iff. split.
    + apply negb_true_iff. destruct (exempt t) eqn:X; [|reflexivity]. apply exempt_iff in X. contradiction.
    + apply existsb_exists. exists (Some g', Some t'). split; [apply in_firstn; eauto|]. cbn [fst snd text_or_empty].
      apply andb_true_iff. split; now apply txeq_same_name.
Qed.
Lemma repeat_same t t' : same_name t t' -> may_repeat t' -> may_repeat t.
Proof. unfold may_repeat, same_name. intros ->. auto. Qed.
Lemma set_linear h n mode : named mode -> plain mode -> mode_set h n (fun _ => []) mode = mode_linear [] mode.
Proof.
  intros Hm Hp. rewrite (mode_set_flags h n mode _ [] (empty_holds h n)), mode_linear_flags by (exact Hm || intros ? []).
  change (logicals []) with (@nil (option (list N) * option (list N))). apply flags_ext. intros p [g [t|]] q E; [|reflexivity]. cbn [app f_set f_linear].
  destruct (exempt t) eqn:X; [reflexivity|]. cbn [negb andb].
  assert (Hg : forall g a, In (g, a) (logicals mode) -> ~ In bar (text_or_empty g) /\ a <> Some []).
  { intros g' a Hin. unfold logicals in Hin. apply in_flat_map in Hin as (c & Hc & Hin). apply in_map_iff in Hin as (a' & [= <- <-] & Ha).
    destruct (Hm c Hc) as (H1 & H2). destruct (fst c) as [g0|] eqn:F; [|congruence]. split; [exact (Hp c g0 Hc F)|]. intros ->. now apply H2. }
  destruct (Hg g (Some t)) as (Bg & Et); [rewrite E; apply in_or_app; right; now left|].
  assert (Hin : forall y, In y p -> In y (logicals mode)) by (intros y Hy; rewrite E; apply in_or_app; now left).
  clear E. induction p as [|[g' a'] p IH]; [reflexivity|]. cbn [existsb fst snd]. rewrite IH by (intros y Hy; apply Hin; now right). f_equal.
  destruct (Hg g' a') as (Bg' & Et'); [apply Hin; now left|]. destruct a' as [t'|].
  - rewrite key_eq by assumption. cbn [text_or_empty]. destruct (txeq t t') eqn:Q; [|now rewrite !andb_false_r].
    destruct (exempt t') eqn:X'; [|reflexivity]. apply exempt_iff in X'. apply txeq_same_name in Q.
    apply (repeat_same _ _ Q) in X'. apply exempt_iff in X'. congruence.
  - cbn [text_or_empty]. rewrite txeq_nil by congruence. now rewrite andb_false_r.
Qed.
Theorem C53_repeats_partial : forall h n mode, named mode -> plain mode ->
  forall k, nth_error (duplicates h n mode) k = Some true <-> repeats mode k.
Proof.
  intros h n mode Hm Hp k. unfold duplicates. destruct (64 <=? N.of_nat (length mode)); [rewrite set_linear by assumption|]; now apply linear_repeats.
Qed.
Lemma linear_prefix mode more : named (mode ++ more) ->
  mode_linear [] (mode ++ more) = mode_linear [] mode ++ flags f_linear (logicals mode) (logicals more).
Proof.
  intros Hm. rewrite !mode_linear_flags; try (exact Hm || intros ? []).
  - rewrite logicals_app, flags_app. reflexivity.
  - intros c Hc. apply Hm. apply in_or_app. now left.
Qed.
(** What is reported for the first channels is the same with any number of further channels. *)
Theorem C53_size_partial : forall h n mode more, named (mode ++ more) -> plain (mode ++ more) ->
  exists rest, duplicates h n (mode ++ more) = duplicates h n mode ++ rest.
Proof.
  intros h n mode more Hm Hp.
  assert (Hm' : named mode) by (intros c Hc; apply Hm, in_or_app; now left).
  assert (Hp' : plain mode) by (intros c g Hc; apply Hp, in_or_app; now left).
  exists (flags f_linear (logicals mode) (logicals more)).
  assert (G : forall m, named m -> plain m -> duplicates h n m = mode_linear [] m).
  { intros m H1 H2. unfold duplicates. destruct (64 <=? N.of_nat (length m)); [now apply set_linear|reflexivity]. }
  rewrite !G by assumption. now apply linear_prefix.
Qed.
(** With the set, the report is decided by the joined names alone. *)
Theorem C53_set : forall h n mode, 64 <= N.of_nat (length mode) -> forall k,
  nth_error (duplicates h n mode) k = Some true <->
  exists g t, nth_error (logicals mode) k = Some (g, Some t) /\ ~ may_repeat t
    /\ exists j g' t', (j < k)%nat /\ nth_error (logicals mode) j = Some (g', Some t') /\ ~ may_repeat t'
       /\ same_name (text_or_empty g ++ T"|" ++ t) (text_or_empty g' ++ T"|" ++ t').
Proof.
  intros h n mode Hl k. unfold duplicates. replace (64 <=? N.of_nat (length mode)) with true by lia.
  rewrite (mode_set_flags h n mode _ [] (empty_holds h n)), flags_nth. cbn [app].
  assert (X : forall t, exempt t = false <-> ~ may_repeat t).
  { intros t. rewrite <- exempt_iff. destruct (exempt t); split; congruence. }
  assert (K : forall g t g' t', txeq (pair_key g t) (pair_key g' t') = true
     <-> same_name (text_or_empty g ++ T"|" ++ t) (text_or_empty g' ++ T"|" ++ t')).
  { intros. rewrite txeq_same_name. unfold same_name, pair_key. now rewrite !lower_idem. }
  split.
  - destruct (nth_error (logicals mode) k) as [[g [t|]]|] eqn:E; [|discriminate..].
    intros [= F]. apply andb_true_iff in F as (F1 & F2). apply existsb_exists in F2 as ([g' [t'|]] & Hin & C); [|discriminate].
    cbn [fst snd] in C. apply andb_true_iff in C as (C1 & C2). apply negb_true_iff in F1, C1. apply in_firstn in Hin as (j & Hj & Ej).
    exists g, t. split; [reflexivity|]. split; [now apply X|]. exists j, g', t'. split; [exact Hj|]. split; [exact Ej|]. split; [now apply X|now apply K].
  - intros (g & t & E & Hne & j & g' & t' & Hj & Ej & Hne' & S). rewrite E. cbn [f_set]. f_equal. apply andb_true_iff.
    apply X in Hne, Hne'. split; [now rewrite Hne|]. apply existsb_exists. exists (g', Some t').
    split; [apply in_firstn; eauto|]. cbn [fst snd]. rewrite Hne'. cbn [negb andb]. now apply K.
Qed.
(** ** C53: counterexamples *)
(** [n] further channels on a geometry of their own. *)
Definition pad (n : nat) : list chan_names := map (fun i => (Some (T"Pad"), [Some (repeat 65 (S i))])) (seq 0 n).
(** A channel without geometry ends the search of a small mode: the repeated pair behind it is not reported. *)
Theorem C53_missing_refuted : exists mode more : list chan_names, forall h n,
  exists rest, nth_error (duplicates h n mode) 2 = Some false /\ duplicates h n (mode ++ more) = rest /\ nth_error rest 2 = Some true
  /\ repeats mode 2.
Proof.
  exists [(None, [Some (T"Pan")]); (Some (T"Head"), [Some (T"Tilt")]); (Some (T"Head"), [Some (T"Tilt")])], (pad 61).
  intros h n. eexists. split; [reflexivity|]. split; [reflexivity|]. split.
  - apply C53_set; [vm_compute; discriminate|]. exists (Some (T"Head")), (T"Tilt"). split; [reflexivity|].
    assert (M : ~ may_repeat (T"Tilt")) by (intros [H|H]; discriminate H). split; [exact M|].
    exists 1%nat, (Some (T"Head")), (T"Tilt"). split; [lia|]. split; [reflexivity|]. split; [exact M|reflexivity].
  - exists (T"Head"), (T"Tilt"). split; [reflexivity|]. split; [intros [H|H]; discriminate H|].
    exists 1%nat, (T"Head"), (T"Tilt"). split; [lia|]. split; [reflexivity|]. split; reflexivity.
Qed.
(** Two different pairs whose joined names are equal are reported in a large mode. *)
Theorem C53_bar_refuted : exists mode more : list chan_names, named (mode ++ more) /\ forall h n,
  nth_error (duplicates h n mode) 1 = Some false /\ nth_error (duplicates h n (mode ++ more)) 1 = Some true /\ ~ repeats mode 1.
Proof.
  exists [(Some (T"A|B"), [Some (T"Pan")]); (Some (T"A"), [Some (T"B|Pan")])], (pad 62). split.
  { intros c Hc. apply in_app_or in Hc as [[<-|[<-|[]]]|Hc].
    - split; [discriminate|]. intros [[=]|[]].
    - split; [discriminate|]. intros [[=]|[]].
    - apply in_map_iff in Hc as (i & <- & _). split; [discriminate|]. intros [[=]|[]]. }
  intros h n. split; [reflexivity|]. split.
  - apply C53_set; [vm_compute; discriminate|]. exists (Some (T"A")), (T"B|Pan"). split; [reflexivity|].
    split; [intros [H|H]; discriminate H|].
    exists 0%nat, (Some (T"A|B")), (T"Pan"). split; [lia|]. split; [reflexivity|]. split; [intros [H|H]; discriminate H|reflexivity].
  - intros (g & t & [= <- <-] & _ & j & g' & t' & Hj & Ej & S1 & S2). destruct j as [|j]; [|lia].
    injection Ej as <- <-. discriminate S1.
Qed.
(** An attribute without a name is reported in a small mode though it is the only one. *)
Theorem C53_empty_refuted : exists mode more : list chan_names, forall h n,
  nth_error (duplicates h n mode) 0 = Some true /\ nth_error (duplicates h n (mode ++ more)) 0 = Some false /\ ~ repeats mode 0.
Proof.
  exists [(Some (T"Head"), [Some []])], (pad 63). intros h n. split; [reflexivity|]. split.
  - destruct (nth_error (duplicates h n ([(Some (T"Head"), [Some []])] ++ pad 63)) 0) as [[|]|] eqn:E.
    + apply (C53_set h n _) in E; [|vm_compute; discriminate]. destruct E as (g & t & _ & _ & j & g' & t' & Hj & _). lia.
    + reflexivity.
    + unfold duplicates in E. change (64 <=? N.of_nat (length ([(Some (T"Head"), [Some []])] ++ pad 63))) with true in E. cbv iota in E.
      rewrite (mode_set_flags h n _ _ [] (empty_holds h n)), flags_nth in E. discriminate E.
  - intros (g & t & _ & _ & j & g' & t' & Hj & _). lia.
Qed.
(** A mode that meets the hypotheses, in two sizes. *)
Definition sample_mode : list chan_names :=
  [(Some (T"Head"), [Some (T"Pan"); Some (T"Tilt")]); (Some (T"Beam"), [Some (T"Pan"); Some (T"Dummy"); None]);
   (Some (T"HEAD"), [Some (T"pan"); Some (T"Zoom")]); (Some (T"Beam"), [Some (T"dummy")])].
Example C53_case : forall h n, named (sample_mode ++ pad 60) /\ plain (sample_mode ++ pad 60)
  /\ duplicates h n sample_mode = [false; false; false; false; false; true; false; false].
Proof.
  intros h n. split; [|split].
  - intros c Hc. apply in_app_or in Hc as [Hc|Hc].
    + repeat (destruct Hc as [<-|Hc]; [split; [discriminate|]; cbn [In fst snd]; intros H; repeat (destruct H as [[=]|H]); destruct H|]). destruct Hc.
    + apply in_map_iff in Hc as (i & <- & _). split; [discriminate|]. intros [[=]|[]].
  - intros c g Hc Eg. apply in_app_or in Hc as [Hc|Hc].
    + repeat (destruct Hc as [<-|Hc]; [injection Eg as <-; vm_compute; intros H; repeat (destruct H as [[=]|H]); destruct H|]). destruct Hc.
    + apply in_map_iff in Hc as (i & <- & _). injection Eg as <-. vm_compute. intros H; repeat (destruct H as [[=]|H]); destruct H.
  - reflexivity.
Qed.
Print Assumptions C53_repeats_partial.
Print Assumptions C53_size_partial.
Print Assumptions C53_set.
Print Assumptions C53_missing_refuted.
Print Assumptions C53_bar_refuted.
Print Assumptions C53_empty_refuted.

(** ** C54: specification *)
(** Some value lies in both ranges. *)
Definition meet (a b c d : N) : Prop := exists v, a <= v <= b /\ c <= v <= d.
Definition overlap (f g : mfunc) : Prop := meet (m_start f) (m_end f) (m_start g) (m_end g).
Definition has_master (f : mfunc) : Prop := m_chan f <> None \/ m_func f <> None.
Definition same_master (f g : mfunc) : Prop :=
  (exists x, m_chan f = Some x /\ m_chan g = Some x) \/ (exists x, m_func f = Some x /\ m_func g = Some x).
(** Both have a mode master, and if it is the same one, their ranges of the master have no common value. *)
Definition separated (f g : mfunc) : Prop :=
  has_master f /\ has_master g /\ (same_master f g -> ~ meet (m_from f) (m_to f) (m_from g) (m_to g)).
(** Two functions, the first before the second, overlap and are not separated. *)
Definition conflict (fs : list mfunc) : Prop :=
  exists p f q g r, fs = p ++ f :: q ++ g :: r /\ overlap f g /\ ~ separated f g.
(** The ranges run from the start to the end. *)
Definition in_order (fs : list mfunc) : Prop := forall f, In f fs -> m_start f <= m_end f /\ m_from f <= m_to f.

(** ** C54: theorems *)
Lemma ranges_meet_iff a b c d : a <= b -> c <= d -> (ranges_meet a b c d = true <-> meet a b c d).
Proof.
  intros H1 H2. unfold ranges_meet, meet. rewrite andb_true_iff. split.
  - intros (E1 & E2). exists (N.max a c). lia.
  - intros (v & Hv). lia.
Qed.
Lemma same_ptr_iff a b : same_ptr a b = true <-> exists x, a = Some x /\ b = Some x.
Proof.
  destruct a as [x|], b as [y|]; cbn [same_ptr]; try (split; [discriminate|intros (z & H1 & H2); congruence]).
  rewrite N.eqb_eq. split; [intros ->; eauto|]. intros (z & H1 & H2). congruence.
Qed.
Lemma same_master_iff f g : same_ptr (m_chan f) (m_chan g) || same_ptr (m_func f) (m_func g) = true <-> same_master f g.
Proof. rewrite orb_true_iff, !same_ptr_iff. reflexivity. Qed.
(** [g] is the first function of [later] that overlaps [f]. *)
Definition first_overlap (f : mfunc) (later : list mfunc) (g : mfunc) : Prop :=
  exists q r, later = q ++ g :: r /\ overlap f g /\ forall x, In x q -> ~ overlap f x.
Lemma check_later_in f later e : in_order (f :: later) -> (In e (check_later f later) <->
  exists g, first_overlap f later g /\
  match e with
  | MissingMaster => ~ has_master f
  | MasterOverlap => same_master f g /\ meet (m_from f) (m_to f) (m_from g) (m_to g)
  end).
Proof.
  induction later as [|g later IH]; intros Ho; cbn [check_later].
  - split; [intros []|]. intros (g & (q & r & E & _) & _). destruct q; discriminate.
  - destruct (Ho f (or_introl eq_refl)) as (Hf1 & Hf2). destruct (Ho g (or_intror (or_introl eq_refl))) as (Hg1 & Hg2).
    destruct (ranges_meet (m_start f) (m_end f) (m_start g) (m_end g)) eqn:M.
    + apply ranges_meet_iff in M; [|assumption..].
      assert (First : forall g', first_overlap f (g :: later) g' -> g' = g).
      { intros g' (q & r & E & O1 & Hq). destruct q as [|x q]; injection E as -> E; [reflexivity|]. destruct (Hq x); [now left|exact M]. }
      assert (Here : first_overlap f (g :: later) g) by (exists [], later; split; [reflexivity|]; split; [exact M|intros ? []]).
      assert (HM : forall g', first_overlap f (g :: later) g' -> same_master f g' -> ranges_meet (m_from f) (m_to f) (m_from g) (m_to g) = false ->
        ~ meet (m_from f) (m_to f) (m_from g') (m_to g')).
      { intros g' Hg' _ E Me. rewrite (First g' Hg') in Me. apply ranges_meet_iff in Me; [congruence|assumption..]. }
      destruct (m_chan f) as [c|] eqn:Ec; [|destruct (m_func f) as [c|] eqn:Ef].
      3:{ split.
        - intros [<-|[]]. exists g. split; [exact Here|]. intros [H|H]; congruence.
        - intros (g' & Hg' & He). destruct e; [now left|]. destruct He as (He & _). destruct He as [(x & H & _)|(x & H & _)]; congruence. }
      all: rewrite <- ?Ec, <- ?Ef.
      all: assert (HF : has_master f) by (unfold has_master; rewrite ?Ec, ?Ef; (left; discriminate) || (right; discriminate)).
      all: destruct (same_ptr (m_chan f) (m_chan g) || same_ptr (m_func f) (m_func g)) eqn:S;
        [destruct (ranges_meet (m_from f) (m_to f) (m_from g) (m_to g)) eqn:R|].
      all: split; [intros H; cbn [In] in H|intros (g' & Hg' & He)]; try (destruct H as [<-|[]]); try contradiction.
      all: try (exists g; split; [exact Here|]; split; [now apply same_master_iff|now apply ranges_meet_iff]).
      all: destruct e; [contradiction|destruct He as (He1 & He2)].
      all: try (now left).
      all: try (destruct (HM g' Hg' He1 eq_refl He2)).
      all: rewrite (First g' Hg') in He1; apply same_master_iff in He1; congruence.
    + assert (NM : ~ overlap f g) by (intros K; apply ranges_meet_iff in K; [congruence|assumption..]).
      rewrite IH by (intros x [<-|Hx]; apply Ho; [now left|right; now right]). split.
      * intros (g' & (q & r & -> & O1 & Hq) & He). exists g'. split; [|exact He]. exists (g :: q), r. split; [reflexivity|]. split; [exact O1|].
        intros x [<-|Hx]; [exact NM|now apply Hq].
      * intros (g' & (q & r & E & O1 & Hq) & He). exists g'. split; [|exact He]. destruct q as [|x q]; injection E as -> E; [contradiction|].
        exists q, r. split; [exact E|]. split; [exact O1|]. intros y Hy. apply Hq. now right.
Qed.
Lemma check_in fs e : In e (check_masters fs) <-> exists p f later, fs = p ++ f :: later /\ In e (check_later f later).
Proof.
  induction fs as [|f fs IH]; cbn [check_masters].
  - split; [intros []|]. intros (p & f & l & E & _). destruct p; discriminate.
  - rewrite in_app_iff, IH. split.
    + intros [H|(p & f' & l & -> & H)]; [exists [], f, fs; auto|exists (f :: p), f', l; auto].
    + intros ([|x p] & f' & l & E & H); cbn [app] in E.
      * injection E as -> ->. now left.
      * injection E as -> ->. right. eauto.
Qed.
Lemma in_order_tail p f later : in_order (p ++ f :: later) -> in_order (f :: later).
Proof. intros H x Hx. apply H. apply in_or_app. now right. Qed.
(** Exactly what is reported: only the first later function that overlaps is looked at. *)
Theorem C54_reported : forall fs, in_order fs ->
  (In MissingMaster (check_masters fs) <-> exists p f later g, fs = p ++ f :: later /\ first_overlap f later g /\ ~ has_master f)
  /\ (In MasterOverlap (check_masters fs) <-> exists p f later g, fs = p ++ f :: later /\ first_overlap f later g
        /\ same_master f g /\ meet (m_from f) (m_to f) (m_from g) (m_to g)).
Proof.
  intros fs Ho. split; rewrite check_in; split.
  - intros (p & f & l & -> & H). apply check_later_in in H; [|exact (in_order_tail _ _ _ Ho)]. destruct H as (g & H1 & H2). exists p, f, l, g. auto.
  - intros (p & f & l & g & -> & H1 & H2). exists p, f, l. split; [reflexivity|]. apply check_later_in; [exact (in_order_tail _ _ _ Ho)|]. eauto.
  - intros (p & f & l & -> & H). apply check_later_in in H; [|exact (in_order_tail _ _ _ Ho)]. destruct H as (g & H1 & H2). exists p, f, l, g. tauto.
  - intros (p & f & l & g & -> & H1 & H2). exists p, f, l. split; [reflexivity|]. apply check_later_in; [exact (in_order_tail _ _ _ Ho)|]. eauto.
Qed.
(** Every reported error has a cause. *)
Theorem C54_sound : forall fs, in_order fs -> check_masters fs <> [] -> conflict fs.
Proof.
  intros fs Ho H. assert (exists e, In e (check_masters fs)) as (e & He).
  { destruct (check_masters fs) as [|e l]; [congruence|]. exists e. now left. }
  apply check_in in He as (p & f & l & -> & He). apply check_later_in in He; [|exact (in_order_tail _ _ _ Ho)].
  destruct He as (g & (q & r & -> & O1 & _) & He). exists p, f, q, g, r. split; [reflexivity|]. split; [exact O1|].
  intros (S1 & S2 & S3). destruct e; [contradiction|]. destruct He as (He1 & He2). exact (S3 He1 He2).
Qed.
(** A conflict is reported if no function between the two overlaps the first, and the second has a mode
    master whenever the first has one. *)
Theorem C54_complete_partial : forall p f q g r, in_order (p ++ f :: q ++ g :: r) ->
  overlap f g -> ~ separated f g -> (forall x, In x q -> ~ overlap f x) -> (has_master f -> has_master g) ->
  check_masters (p ++ f :: q ++ g :: r) <> [].
Proof.
  intros p f q g r Ho O1 NS Hq Hg. set (fs := p ++ f :: q ++ g :: r) in *.
  assert (First : first_overlap f (q ++ g :: r) g) by (exists q, r; auto).
  assert (Hf2 : has_master f \/ ~ has_master f).
  { unfold has_master. destruct (m_chan f); [left; left; discriminate|]. destruct (m_func f); [left; right; discriminate|]. right. intros [H|H]; congruence. }
  assert (exists e, In e (check_masters fs)) as (e & He); [|intros E; rewrite E in He; exact He].
  destruct Hf2 as [HF|HF].
  - exists MasterOverlap. apply C54_reported; [exact Ho|]. exists p, f, (q ++ g :: r), g. split; [reflexivity|]. split; [exact First|].
    destruct (same_ptr (m_chan f) (m_chan g) || same_ptr (m_func f) (m_func g)) eqn:S.
    + apply same_master_iff in S. split; [exact S|].
      destruct (ranges_meet (m_from f) (m_to f) (m_from g) (m_to g)) eqn:R.
      * apply ranges_meet_iff in R; [exact R| |]; apply Ho; unfold fs; apply in_or_app; right; [now left|right; apply in_or_app; right; now left].
      * exfalso. apply NS. split; [exact HF|]. split; [auto|]. intros _ K. apply ranges_meet_iff in K; [congruence| |];
          apply Ho; unfold fs; apply in_or_app; right; [now left|right; apply in_or_app; right; now left].
    + exfalso. apply NS. split; [exact HF|]. split; [auto|]. intros K. apply same_master_iff in K. congruence.
  - exists MissingMaster. apply C54_reported; [exact Ho|]. exists p, f, (q ++ g :: r), g. auto.
Qed.
(** Without mode masters, and with at most two functions that both or neither have one, the report is exact. *)
Theorem C54_plain : forall fs, in_order fs -> (forall f, In f fs -> ~ has_master f) ->
  (check_masters fs <> [] <-> exists p f q g r, fs = p ++ f :: q ++ g :: r /\ overlap f g).
Proof.
  intros fs Ho Hn. split.
  - intros H. destruct (C54_sound fs Ho H) as (p & f & q & g & r & -> & O1 & _). exists p, f, q, g, r. auto.
  - intros (p & f & q & g & r & -> & O1) E.
    assert (Hf : ~ has_master f) by (apply Hn, in_or_app; right; now left).
    assert (exists g', first_overlap f (q ++ g :: r) g') as (g' & Hg').
    { clear E. assert (Ho' := in_order_tail _ _ _ Ho). clear Hn Ho. revert Ho'. induction q as [|x q IH]; intros Ho'.
      - exists g, [], r. split; [reflexivity|]. split; [exact O1|intros ? []].
      - destruct (ranges_meet (m_start f) (m_end f) (m_start x) (m_end x)) eqn:R.
        + apply ranges_meet_iff in R; [|apply Ho'; now left|apply Ho'; right; now left].
          exists x, [], (q ++ g :: r). split; [reflexivity|]. split; [exact R|intros ? []].
        + destruct IH as (g' & q' & r' & E & O2 & Hq).
          { intros y [<-|Hy]; apply Ho'; [now left|right; now right]. }
          exists g', (x :: q'), r'. split; [cbn [app]; now rewrite E|]. split; [exact O2|].
          intros y [<-|Hy]; [|now apply Hq]. intros K. apply ranges_meet_iff in K; [congruence|apply Ho'; now left|apply Ho'; right; now left]. }
    assert (He : In MissingMaster (check_masters (p ++ f :: q ++ g :: r))) by (apply C54_reported; [exact Ho|]; exists p, f, (q ++ g :: r), g'; auto).
    rewrite E in He. exact He.
Qed.
(** A conflict with a function after the first that overlaps is not reported. *)
Theorem C54_later_refuted : exists fs, in_order fs /\ (forall f, In f fs -> has_master f) /\ conflict fs /\ check_masters fs = [].
Proof.
  pose (a := mkM 0 255 (Some 1) None 0 10). pose (b := mkM 0 10 (Some 1) None 11 20). pose (c := mkM 20 30 (Some 1) None 0 10).
  exists [a; b; c]. split; [|split; [|split]].
  - intros f [<-|[<-|[<-|[]]]]; split; vm_compute; discriminate.
  - intros f [<-|[<-|[<-|[]]]]; left; discriminate.
  - exists [], a, [b], c, []. split; [reflexivity|]. split; [exists 25; vm_compute; split; split; discriminate|].
    intros (_ & _ & H). apply H; [left; exists 1; split; reflexivity|]. exists 5. vm_compute. split; split; discriminate.
  - reflexivity.
Qed.
(** Neither is a pair whose second function has no mode master. *)
Theorem C54_second_refuted : exists fs, in_order fs /\ conflict fs /\ check_masters fs = [].
Proof.
  pose (a := mkM 0 255 (Some 1) None 0 10). pose (b := mkM 0 255 None None 0 0).
  exists [a; b]. split; [|split].
  - intros f [<-|[<-|[]]]; split; vm_compute; discriminate.
  - exists [], a, [], b, []. split; [reflexivity|]. split; [exists 25; vm_compute; split; split; discriminate|].
    intros (_ & [H|H] & _); apply H; reflexivity.
  - reflexivity.
Qed.
Example C54_case :
  check_masters [mkM 0 127 None None 0 0; mkM 128 255 None None 0 0] = []
  /\ check_masters [mkM 0 128 None None 0 0; mkM 128 255 None None 0 0] = [MissingMaster]
  /\ check_masters [mkM 0 255 (Some 1) None 0 10; mkM 0 255 (Some 1) None 11 20] = []
  /\ check_masters [mkM 0 255 (Some 1) None 0 11; mkM 0 255 (Some 1) None 11 20] = [MasterOverlap].
Proof. repeat split; reflexivity. Qed.

(** ** C74 *)
(** For every list of attributes (name, feature reference, main attribute reference) and both ways of
    lookup: the loop is undefined exactly if no attribute is called NoFeature while some attribute with a
    feature names NoFeature as its main attribute. *)
Definition attr_names (l : list (list N * (list N * list N))) : list (list N * @attr N) :=
  map (fun p => (fst (snd p), Attr (fst p))) (combine (map N.of_nat (seq 0 (length l))) l).
Lemma attr_names_fst l : map fst (attr_names l) = map fst l.
Proof.
  unfold attr_names. rewrite map_map. cbn [fst].
  assert (G : forall (l : list (list N * (list N * list N))) k, map (fun x : N * (list N * (list N * list N)) => fst (snd x)) (combine (map N.of_nat (seq k (length l))) l) = map fst l).
  { clear. induction l as [|x l IH]; intros k; cbn [length seq map combine fst snd]; [reflexivity|]. now rewrite IH. }
  apply G.
Qed.
Lemma get_same {P} h n (s : @attrs P) main : main <> [] -> at_none s <> None \/ ~ same_name main no_feature -> snd (get_attribute h n s main) = s.
Proof.
  intros Hm H. unfold get_attribute. destruct (txeq main no_feature) eqn:E.
  - apply txeq_same_name in E. destruct H as [H|H]; [|contradiction]. now destruct (at_none s).
  - destruct (if at_use s then umap_find (tx_hash_no_case h) n (at_index s) main else linear (at_list s) main); [reflexivity|].
    destruct main; [congruence|]. unfold nlen. cbn [length]. destruct (N.of_nat (S (length main)) =? 0) eqn:Z; [lia|reflexivity].
Qed.
Lemma resolve_ok {P} h n (s : @attrs P) l : at_none s <> None \/ (forall f m, In (f, m) l -> f <> [] -> ~ same_name m no_feature) ->
  resolve_attribs h n s l = Ok s.
Proof.
  induction l as [|[f m] l IH]; intros H; cbn [resolve_attribs]; [reflexivity|].
  assert (IH' : resolve_attribs h n s l = Ok s) by (apply IH; destruct H as [H|H]; [now left|right; intros f' m' Hin; apply (H f' m'); now right]).
  destruct (nlen f =? 0) eqn:Ef; [exact IH'|]. destruct (nlen m =? 0) eqn:Em; [exact IH'|].
  rewrite get_same.
  - now rewrite Nat.eqb_refl.
  - intros ->. discriminate Em.
  - destruct H as [H|H]; [now left|right]. apply (H f m); [now left|]. intros ->. discriminate Ef.
Qed.
Lemma resolve_ub {P} h n (s : @attrs P) l : at_none s = None -> (exists f m, In (f, m) l /\ f <> [] /\ same_name m no_feature) -> resolve_attribs h n s l = UB.
Proof.
  intros H0. induction l as [|[f m] l IH]; intros (f' & m' & Hin & Hf & Hm); [destruct Hin|]. cbn [resolve_attribs].
  destruct Hin as [[= -> ->]|Hin].
  - destruct (nlen f' =? 0) eqn:Ef; [apply nlen_nil in Ef; congruence|].
    destruct (nlen m' =? 0) eqn:Em; [apply nlen_nil in Em; subst; discriminate Hm|].
    unfold get_attribute. apply txeq_same_name in Hm. rewrite Hm, H0. cbn [snd create at_list]. rewrite app_length. cbn [length].
    destruct (length (at_list s) + 1 =? length (at_list s))%nat eqn:Q; [lia|reflexivity].
  - assert (IH' : resolve_attribs h n s l = UB) by (apply IH; eauto 6).
    destruct (nlen f =? 0) eqn:Ef; [exact IH'|]. destruct (nlen m =? 0) eqn:Em; [exact IH'|].
    destruct (txeq m no_feature) eqn:Q.
    + unfold get_attribute. rewrite Q, H0. cbn [snd create at_list]. rewrite app_length. cbn [length].
      destruct (length (at_list s) + 1 =? length (at_list s))%nat eqn:Z; [lia|reflexivity].
    + rewrite get_same; [now rewrite Nat.eqb_refl| |].
      * intros ->. discriminate Em.
      * right. intros K. apply txeq_same_name in K. congruence.
Qed.
Lemma linear_none {A} (l : list (list N * A)) ref : linear l ref = None <-> forall k, In k (map fst l) -> ~ same_name k ref.
Proof.
  unfold linear. destruct (find (fun p => txeq (fst p) ref) l) as [p|] eqn:E.
  - apply find_some in E as (E1 & E2). split; [discriminate|]. intros H. destruct (H (fst p)); [now apply in_map|now apply txeq_same_name].
  - split; [|reflexivity]. intros _ k Hk K. apply in_map_iff in Hk as (p & <- & Hp). pose proof (find_none _ _ E p Hp) as F. cbn in F.
    apply txeq_same_name in K. congruence.
Qed.
Theorem C74_undefined_iff : forall h n (l : list (list N * (list N * list N))) total,
  resolve_attribs h n (build_attrs h n (attr_names l) total) (map snd l) = UB <->
  (forall a, In a l -> ~ same_name (fst a) (T"NoFeature"))
  /\ exists a, In a l /\ fst (snd a) <> [] /\ same_name (snd (snd a)) (T"NoFeature").
Proof.
  intros h n l total. set (s := build_attrs h n (attr_names l) total).
  assert (A0 : at_none s = linear (attr_names l) no_feature) by reflexivity. split.
  - intros U. split.
    + intros a Ha K. rewrite resolve_ok in U; [discriminate|]. left. rewrite A0. intros Z. apply (proj1 (linear_none _ _)) with (k := fst a) in Z; [contradiction|].
      rewrite attr_names_fst. now apply in_map.
    + destruct (existsb (fun a : list N * (list N * list N) => negb (nlen (fst (snd a)) =? 0) && txeq (snd (snd a)) no_feature) l) eqn:X.
      * apply existsb_exists in X as (a & Ha & X). apply andb_true_iff in X as (X1 & X2). exists a. split; [exact Ha|]. split; [|now apply txeq_same_name].
        intros Z. apply nlen_nil in Z. rewrite Z in X1. discriminate.
      * rewrite resolve_ok in U; [discriminate|]. right. intros f m Hin Hf Hm. apply in_map_iff in Hin as (a & Ea & Ha).
        assert (existsb (fun a : list N * (list N * list N) => negb (nlen (fst (snd a)) =? 0) && txeq (snd (snd a)) no_feature) l = true); [|congruence].
        apply existsb_exists. exists a. split; [exact Ha|]. rewrite Ea. cbn [fst snd]. apply andb_true_iff. split; [|now apply txeq_same_name].
        apply negb_true_iff. destruct (nlen f =? 0) eqn:Z; [apply nlen_nil in Z; contradiction|reflexivity].
  - intros (H & a & Ha & Hf & Hm). apply resolve_ub.
    + rewrite A0. apply linear_none. rewrite attr_names_fst. intros k Hk. apply in_map_iff in Hk as (b & <- & Hb). now apply H.
    + exists (fst (snd a)), (snd (snd a)). split; [|auto]. apply in_map_iff. exists a. split; [now destruct a as [? []]|exact Ha].
Qed.
Theorem C74_defined : forall h n (l : list (list N * (list N * list N))) total,
  (exists a, In a l /\ same_name (fst a) (T"NoFeature")) \/ (forall a, In a l -> ~ same_name (snd (snd a)) (T"NoFeature")) ->
  exists s, resolve_attribs h n (build_attrs h n (attr_names l) total) (map snd l) = Ok s /\ at_list s = attr_names l.
Proof.
  intros h n l total H. exists (build_attrs h n (attr_names l) total). split; [|reflexivity]. apply resolve_ok. destruct H as [(a & Ha & K)|H].
  - left. change (at_none (build_attrs h n (attr_names l) total)) with (linear (attr_names l) no_feature). intros Z.
    apply (proj1 (linear_none _ _)) with (k := fst a) in Z; [contradiction|]. rewrite attr_names_fst. now apply in_map.
  - right. intros f m Hin _. apply in_map_iff in Hin as (a & Ea & Ha). pose proof (H a Ha) as K. rewrite Ea in K. exact K.
Qed.
Theorem C74_refuted : exists l : list (list N * (list N * list N)), forall h n total,
  resolve_attribs h n (build_attrs h n (attr_names l) total) (map snd l) = UB.
Proof.
  exists [(T"Pan", (T"Position.PanTilt", T"NoFeature"))]. intros h n total. apply C74_undefined_iff. split.
  - intros a [<-|[]] H. discriminate H.
  - eexists. split; [now left|]. split; [discriminate|reflexivity].
Qed.
Example C74_case : forall h n, exists s,
  resolve_attribs h n (build_attrs h n (attr_names [(T"Pan", (T"Position.PanTilt", [])); (T"PanRotate", (T"Position.PanTilt", T"Pan"))]) 3)
    [(T"Position.PanTilt", []); (T"Position.PanTilt", T"Pan")] = Ok s.
Proof. intros. eexists. reflexivity. Qed.
Print Assumptions C54_reported.
Print Assumptions C54_sound.
Print Assumptions C54_complete_partial.
Print Assumptions C54_plain.
Print Assumptions C54_later_refuted.
Print Assumptions C54_second_refuted.
Print Assumptions C74_undefined_iff.
Print Assumptions C74_defined.
Print Assumptions C74_refuted.
