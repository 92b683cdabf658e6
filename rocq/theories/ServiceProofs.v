(** Lemmas about ServiceModel. *)
From Coq Require Import List NArith ZArith String Bool Lia.
From Coq Require Import ZifyN ZifyNat ZifyBool.
From Verif Require Import Bytes BytesProofs Txt UtfSpec UtfModel UtfProofs NumModel NumProofs UuidModel UuidProps ConvModel ConvProps3 JsonModel JsonProofs MessageModel MessageProofs ServiceModel.
Import ListNotations.
Open Scope N_scope.

(** ** Equality tests *)
Lemma words_eqb_iff u v : words_eqb u v = true <-> u = v.
Proof.
  destruct u as [[[a b] c] d], v as [[[a' b'] c'] d']. cbn [words_eqb]. rewrite !andb_true_iff, !N.eqb_eq.
  split; [intros [[[-> ->] ->] ->]; reflexivity|]. intros E. inversion E. tauto.
Qed.
Lemma texts_eqb_iff : forall a b, texts_eqb a b = true <-> a = b.
Proof.
  induction a as [|x a IH]; intros [|y b]; cbn [texts_eqb]; try (split; [discriminate|intros E; inversion E]).
  - tauto.
  - rewrite andb_true_iff, IH, str_eqb_iff. split; [intros [-> ->]; reflexivity|]. intros E. inversion E. tauto.
Qed.

(** ** Searching in texts *)
Lemma find_char_none c : forall s, find_char c s = None <-> ~ In c s.
Proof.
  induction s as [|x s IH]; cbn [find_char]; [cbn; tauto|]. destruct (N.eqb_spec x c) as [->|Hx].
  - split; [discriminate|]. intros H. exfalso. apply H. now left.
  - destruct (find_char c s); [split; [discriminate|]|split; [|reflexivity]].
    + intros H. exfalso. assert (~ In c s) as H' by (intros K; apply H; now right). apply IH in H'. discriminate.
    + intros _ [->|K]; [congruence|]. revert K. now apply IH.
Qed.
Lemma find_char_app c p s : ~ In c p -> find_char c (p ++ c :: s) = Some (List.length p).
Proof.
  induction p as [|x p IH]; intros H; cbn [app find_char List.length]; [now rewrite N.eqb_refl|].
  destruct (N.eqb_spec x c) as [->|Hx]; [exfalso; apply H; now left|]. rewrite IH by (intros K; apply H; now right). reflexivity.
Qed.
Lemma starts_with_iff : forall p s, starts_with p s = true <-> exists b, s = p ++ b.
Proof.
  induction p as [|x p IH]; intros s; cbn [starts_with].
  - split; [intros _; now exists s|reflexivity].
  - destruct s as [|y s]; [split; [discriminate|intros (b & E); inversion E]|]. rewrite andb_true_iff, N.eqb_eq, IH.
    split; [intros (-> & b & ->); now exists b|]. intros (b & E). inversion E. split; [reflexivity|now exists b].
Qed.
Definition occurs (p s : list N) : Prop := exists a b, s = a ++ p ++ b.
Lemma occurs_cons p x s : occurs p (x :: s) <-> (exists b, x :: s = p ++ b) \/ occurs p s.
Proof.
  split.
  - intros ([|y a] & b & E); [left; now exists b|]. right. inversion E. now exists a, b.
  - intros [(b & E)|(a & b & E)]; [now exists [], b|]. exists (x :: a), b. now rewrite E.
Qed.
Lemma last_at_none p : forall s, last_at p s = None <-> ~ occurs p s.
Proof.
  induction s as [|x s IH]; cbn [last_at].
  - destruct (starts_with p []) eqn:E.
    + split; [discriminate|]. intros H. exfalso. apply H. apply starts_with_iff in E as (b & E). exists [], b. exact E.
    + split; [|reflexivity]. intros _ (a & b & H). destruct a; [|discriminate]. assert (starts_with p [] = true) by (apply starts_with_iff; now exists b). congruence.
  - rewrite occurs_cons. destruct (last_at p s).
    + split; [discriminate|]. intros H. exfalso. assert (~ occurs p s) as K by tauto. apply IH in K. discriminate.
    + destruct (starts_with p (x :: s)) eqn:E.
      * split; [discriminate|]. intros H. exfalso. apply H. left. apply starts_with_iff in E. exact E.
      * split; [|reflexivity]. intros _ [(b & H)|H]; [|revert H; now apply IH].
        assert (starts_with p (x :: s) = true) by (apply starts_with_iff; now exists b). congruence.
Qed.
(** rfind gives 0 exactly when the text starts with the pattern and has no other occurrence. *)
Lemma last_zero p : forall s, is_zero_at (last_at p s) = true <-> (exists v, s = p ++ v) /\ (forall x r, s = x :: r -> ~ occurs p r).
Proof.
  intros [|x s]; cbn [last_at].
  - destruct (starts_with p []) eqn:E.
    + cbn. split; [intros _|reflexivity]. split; [now apply starts_with_iff|]. discriminate.
    + cbn. split; [discriminate|]. intros [H _]. apply starts_with_iff in H. congruence.
  - destruct (last_at p s) eqn:L.
    + cbn. split; [discriminate|]. intros [_ H]. specialize (H x s eq_refl). apply last_at_none in H. congruence.
    + apply last_at_none in L. destruct (starts_with p (x :: s)) eqn:E; cbn.
      * split; [intros _|reflexivity]. split; [now apply starts_with_iff|]. intros y r Q. inversion Q; subst. exact L.
      * split; [discriminate|]. intros [H _]. apply starts_with_iff in H. congruence.
Qed.

(** ** FilterServiceName *)
Definition name_chars : list N := T"abcdefghijklmnopqrstuvwxyzABCDEFGHIJKLMNOPQRSTUVWXYZ0123456789-_".
Lemma name_char_iff c : name_char c = true <-> In c name_chars.
Proof.
  split.
  - intros H. unfold name_char in H.
    assert (c < 123) as L by lia.
    assert (forallb (fun c => negb (name_char c) || existsb (N.eqb c) name_chars) (map N.of_nat (seq 0 123)) = true) as A by reflexivity.
    rewrite forallb_forall in A. specialize (A c). cbv beta in A. unfold name_char in A. rewrite H in A. cbn [negb orb] in A.
    assert (existsb (N.eqb c) name_chars = true) as B.
    { apply A. apply in_map_iff. exists (N.to_nat c). split; [lia|]. apply in_seq. lia. }
    apply existsb_exists in B as (y & B1 & B2). apply N.eqb_eq in B2. now subst.
  - intros H. assert (forallb name_char name_chars = true) as A by reflexivity. rewrite forallb_forall in A. now apply A.
Qed.

(** ** The TXT loop *)
Lemma txt_mono : forall f f' txt ptr n u, (f <= f')%nat -> txt_loop f txt ptr n u <> Loop -> txt_loop f' txt ptr n u = txt_loop f txt ptr n u.
Proof.
  induction f as [|f IH]; intros f' txt ptr n u L H; [now cbn in H|]. destruct f' as [|f']; [lia|].
  cbn [txt_loop] in *. cbv zeta in *.
  destruct (Nat.ltb (List.length txt) (ptr + 1)); [reflexivity|].
  destruct (find_char 61 _) as [e|].
  - destruct (is_zero_at (last_at (T"StationName=") _)).
    + destruct (set_from_chars _); [|reflexivity]. destruct (Nat.ltb _ _); [apply IH; [lia|exact H]|reflexivity].
    + destruct (is_zero_at (last_at (T"StationUUID=") _)).
      * destruct (set_from_chars _); [|reflexivity]. destruct (Nat.ltb _ _); [apply IH; [lia|exact H]|reflexivity].
      * destruct (Nat.ltb _ _); [apply IH; [lia|exact H]|reflexivity].
  - destruct (Nat.ltb ptr _); [apply IH; [lia|exact H]|reflexivity].
Qed.

Definition txt_next (f : nat) (pre rest : list N) (n u : list N) : res (list N * list N) :=
  match rest with [] => Ok (n, u) | _ => txt_loop f (pre ++ rest) (List.length pre) n u end.
Lemma txt_next_ltb f pre rest n u :
  (if Nat.ltb (List.length pre) (List.length (pre ++ rest)) then txt_loop f (pre ++ rest) (List.length pre) n u else Ok (n, u)) = txt_next f pre rest n u.
Proof.
  rewrite app_length. destruct rest; cbn [List.length txt_next].
  - replace (Nat.ltb _ _) with false by (symmetry; apply Nat.ltb_ge; lia). reflexivity.
  - replace (Nat.ltb _ _) with true by (symmetry; apply Nat.ltb_lt; lia). reflexivity.
Qed.
Lemma txt_step f pre len rest n u :
  let t := firstn (N.to_nat len) rest in
  let pre' := pre ++ len :: t in
  let rest' := skipn (N.to_nat len) rest in
  txt_loop (S f) (pre ++ len :: rest) (List.length pre) n u =
    match find_char 61 t with
    | None => txt_loop f (pre ++ len :: rest) (List.length pre) n u
    | Some eq =>
      let v := skipn (eq + 1) t in
      if is_zero_at (last_at (T"StationName=") t) then
        match set_from_chars v with None => Exc | Some x => txt_next f pre' rest' x u end
      else if is_zero_at (last_at (T"StationUUID=") t) then
        match set_from_chars v with None => Exc | Some x => txt_next f pre' rest' n x end
      else txt_next f pre' rest' n u
    end.
Proof.
  cbv zeta. cbn [txt_loop]. cbv zeta.
  rewrite app_nth2, Nat.sub_diag by lia. cbn [nth].
  replace (skipn (List.length pre + 1) (pre ++ len :: rest)) with rest
    by (rewrite skipn_app, skipn_all2 by lia; replace (List.length pre + 1 - List.length pre)%nat with 1%nat by lia; reflexivity).
  replace (Nat.ltb _ (List.length pre + 1)) with false by (symmetry; apply Nat.ltb_ge; rewrite app_length; cbn [List.length]; lia).
  set (t := firstn (N.to_nat len) rest).
  assert (forall n u, (if Nat.ltb (List.length pre + N.to_nat len + 1) (List.length (pre ++ len :: rest))
            then txt_loop f (pre ++ len :: rest) (List.length pre + N.to_nat len + 1) n u else Ok (n, u))
          = txt_next f (pre ++ len :: t) (skipn (N.to_nat len) rest) n u) as X.
  { intros n' u'. destruct (Nat.le_gt_cases (List.length rest) (N.to_nat len)) as [Hl|Hl].
    - rewrite skipn_all2 by exact Hl. cbn [txt_next]. replace (Nat.ltb _ _) with false; [reflexivity|].
      symmetry. apply Nat.ltb_ge. rewrite app_length. cbn [List.length]. lia.
    - rewrite <- txt_next_ltb. rewrite <- app_assoc. cbn [app].
      unfold t. rewrite firstn_skipn. rewrite !app_length. cbn [List.length]. rewrite firstn_length_le by lia.
      replace (List.length pre + S (N.to_nat len))%nat with (List.length pre + N.to_nat len + 1)%nat by lia. reflexivity. }
  rewrite !X. replace (Nat.ltb (List.length pre) _) with true by (symmetry; apply Nat.ltb_lt; rewrite app_length; cbn [List.length]; lia).
  destruct (find_char 61 t) as [e|]; [|reflexivity].
  destruct (is_zero_at _); [destruct (set_from_chars _); [rewrite X|]; reflexivity|].
  destruct (is_zero_at _); [destruct (set_from_chars _); [rewrite X|]; reflexivity|]. reflexivity.
Qed.
(** One entry is read with its text. *)
Lemma txt_step_entry f pre t rest n u : nlen t < 256 ->
  txt_loop (S f) (pre ++ txt_entry t ++ rest) (List.length pre) n u =
    match find_char 61 t with
    | None => txt_loop f (pre ++ txt_entry t ++ rest) (List.length pre) n u
    | Some eq =>
      let v := skipn (eq + 1) t in
      if is_zero_at (last_at (T"StationName=") t) then
        match set_from_chars v with None => Exc | Some x => txt_next f (pre ++ txt_entry t) rest x u end
      else if is_zero_at (last_at (T"StationUUID=") t) then
        match set_from_chars v with None => Exc | Some x => txt_next f (pre ++ txt_entry t) rest n x end
      else txt_next f (pre ++ txt_entry t) rest n u
    end.
Proof.
  intros L. unfold txt_entry. rewrite N.mod_small by exact L. cbn [app].
  rewrite txt_step. unfold nlen. rewrite Nnat.Nat2N.id.
  rewrite firstn_app, Nat.sub_diag, firstn_all, firstn_O, app_nil_r.
  rewrite skipn_app, Nat.sub_diag, skipn_all, skipn_O. cbn [app]. reflexivity.
Qed.
Lemma occurs_app_clear p k v : (forall a b, p = a ++ b -> a <> [] -> b <> [] -> forall c, k <> c ++ a) -> occurs p (k ++ v) -> occurs p v \/ occurs p k.
Proof.
  intros H (a & b & E). apply app_eq_app in E as (l & [[E1 E2]|[E1 E2]]).
  - (* k = a ++ l, p ++ b = l ++ v *)
    symmetry in E2. apply app_eq_app in E2 as (l' & [[F1 F2]|[F1 F2]]).
    + right. exists a, l'. now rewrite E1, F1.
    + destruct l as [|x l]; [left; exists [], b; cbn in F1; subst l'; cbn; now rewrite F2|].
      destruct l' as [|y l']; [right; exists a, []; rewrite app_nil_r in F1; rewrite app_nil_r; congruence|].
      exfalso. apply (H (x :: l) (y :: l') F1) with (c := a); [discriminate|discriminate|exact E1].
  - left. exists l, b. exact E2.
Qed.
