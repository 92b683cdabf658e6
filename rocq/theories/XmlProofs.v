(** Lemmas about the XML reader and printer. *)
From Coq Require Import String List NArith ZArith Lia Bool Arith Permutation.
From Coq Require Import ZifyN ZifyNat ZifyBool.
From Verif Require Import Bytes Txt UtfModel UtfSpec UtfProofs StringModel StringProofs XmlModel XmlSpec.
Import ListNotations.
Open Scope N_scope.

(** ** Line ends *)
Fixpoint nl (s : list N) : list N :=
  match s with
  | [] => []
  | c :: r =>
    if c =? 13 then 10 :: (match r with d :: r' => if d =? 10 then nl r' else nl r | [] => [] end)
    else if c =? 10 then 10 :: (match r with d :: r' => if d =? 13 then nl r' else nl r | [] => [] end)
    else c :: nl r
  end.
Lemma nl_spec_n : forall n s, (List.length s <= n)%nat -> newlines s (nl s).
Proof.
  induction n as [|n IH]; intros s L.
  - destruct s; [constructor|cbn in L; lia].
  - destruct s as [|c r]; [constructor|]. cbn [nl]. cbn [List.length] in L.
    destruct (c =? 13) eqn:E.
    + apply N.eqb_eq in E. subst c. destruct r as [|d r'].
      * apply nl_cr; [discriminate|constructor].
      * destruct (d =? 10) eqn:D.
        -- apply N.eqb_eq in D. subst d. apply nl_crlf. apply IH. cbn in L; lia.
        -- apply nl_cr; [|apply IH; cbn in *; lia]. intros t X. injection X as -> _. discriminate D.
    + destruct (c =? 10) eqn:F.
      * apply N.eqb_eq in F. subst c. destruct r as [|d r'].
        -- apply nl_lf; [discriminate|constructor].
        -- destruct (d =? 13) eqn:D.
           ++ apply N.eqb_eq in D. subst d. apply nl_lfcr. apply IH. cbn in L; lia.
           ++ apply nl_lf; [|apply IH; cbn in *; lia]. intros t X. injection X as -> _. discriminate D.
      * apply nl_other; [intros ->; discriminate E|intros ->; discriminate F|apply IH; lia].
Qed.
Lemma nl_spec s : newlines s (nl s).
Proof. apply (nl_spec_n (List.length s)). lia. Qed.
Lemma newlines_eq s t : newlines s t -> t = nl s.
Proof.
  induction 1 as [|r r' _ IH|r r' A _ IH|r r' _ IH|r r' A _ IH|c r r' A B _ IH]; cbn [nl].
  - reflexivity.
  - cbn. congruence.
  - cbn. destruct r as [|d r0]; [rewrite IH; reflexivity|].
    destruct (d =? 10) eqn:D; [apply N.eqb_eq in D; subst d; exfalso; apply (A r0); reflexivity|]. congruence.
  - cbn. congruence.
  - cbn. destruct r as [|d r0]; [rewrite IH; reflexivity|].
    destruct (d =? 13) eqn:D; [apply N.eqb_eq in D; subst d; exfalso; apply (A r0); reflexivity|]. congruence.
  - rewrite (proj2 (N.eqb_neq c 13) A), (proj2 (N.eqb_neq c 10) B). congruence.
Qed.
Lemma nl_no_cr s : no_cr s -> nl s = s.
Proof.
  unfold no_cr. induction s as [|c r IH]; intros H; [reflexivity|]. cbn [nl].
  assert (C : c <> 13) by (intros ->; apply H; left; reflexivity).
  assert (R : ~ In 13 r) by (intros X; apply H; right; exact X).
  rewrite (proj2 (N.eqb_neq c 13) C). destruct (c =? 10) eqn:E.
  - apply N.eqb_eq in E. subst c. f_equal. destruct r as [|d r0]; [reflexivity|].
    destruct (d =? 13) eqn:D; [apply N.eqb_eq in D; subst d; exfalso; apply R; left; reflexivity|]. apply IH, R.
  - f_equal. apply IH, R.
Qed.
(** What the conversion keeps. *)
Lemma newlines_no_cr s t : newlines s t -> no_cr t.
Proof.
  unfold no_cr. induction 1 as [|r r' _ IH|r r' A _ IH|r r' _ IH|r r' A _ IH|c r r' A B _ IH];
    [intros []|..]; (intros [X|X]; [try discriminate X; congruence|exact (IH X)]).
Qed.
Lemma newlines_in s t : newlines s t -> forall c, c <> 10 -> c <> 13 -> (In c t <-> In c s).
Proof.
  induction 1 as [|r r' _ IH|r r' A _ IH|r r' _ IH|r r' A _ IH|d r r' A B _ IH]; intros c C1 C2; cbn [In];
    try (rewrite (IH c C1 C2)); intuition congruence.
Qed.
Lemma newlines_white s t : newlines s t -> (Forall white t <-> Forall white s).
Proof.
  assert (W : white 10) by (right; lia). assert (W' : white 13) by (right; lia).
  induction 1 as [|r r' _ IH|r r' A _ IH|r r' _ IH|r r' A _ IH|d r r' A B _ IH]; rewrite ?Forall_cons_iff; tauto.
Qed.

(** ** Values *)
Definition esc1 (b : bool) (c : N) : list N :=
  if (if b then (c =? 38) || (c =? 60) || (c =? 62) else existsb (fun e => snd e =? c) entities)
  then entity_of c else [c].
Lemma escape_cons b c r : escape b (c :: r) = esc1 b c ++ escape b r.
Proof. reflexivity. Qed.
Lemma escape_app b x y : escape b (x ++ y) = escape b x ++ escape b y.
Proof. unfold escape. apply flat_map_app. Qed.
Lemma esc1_cases b c :
  (esc1 b c = [c] /\ c <> 38 /\ c <> 60 /\ (b = false -> c <> 34)) \/
  (exists pat, In (pat, c) entities /\ esc1 b c = 38 :: pat ++ [59]).
Proof.
  assert (X : c = 34 \/ c = 38 \/ c = 39 \/ c = 60 \/ c = 62 \/
              (c <> 34 /\ c <> 38 /\ c <> 39 /\ c <> 60 /\ c <> 62)) by lia.
  destruct X as [->|[->|[->|[->|[->|(A&B&C&D&E)]]]]].
  - destruct b; [left; repeat split; congruence|right; exists (T"quot"); split; [cbn; tauto|reflexivity]].
  - right; exists (T"amp"); split; [cbn; tauto|destruct b; reflexivity].
  - destruct b; [left; repeat split; congruence|right; exists (T"apos"); split; [cbn; tauto|reflexivity]].
  - right; exists (T"lt"); split; [cbn; tauto|destruct b; reflexivity].
  - right; exists (T"gt"); split; [cbn; tauto|destruct b; reflexivity].
  - left. split; [|tauto]. unfold esc1. cbn [existsb entities snd].
    rewrite (N.eqb_sym 34), (N.eqb_sym 38), (N.eqb_sym 39), (N.eqb_sym 60), (N.eqb_sym 62).
    rewrite (proj2 (N.eqb_neq c 34) A), (proj2 (N.eqb_neq c 38) B), (proj2 (N.eqb_neq c 39) C),
      (proj2 (N.eqb_neq c 60) D), (proj2 (N.eqb_neq c 62) E). destruct b; reflexivity.
Qed.
Lemma get_entity pat c f orig out s : In (pat, c) entities ->
  get_loop (S f) true orig out (38 :: pat ++ 59 :: s) = get_loop f true orig (c :: out) s.
Proof.
  intros H. cbn [entities In] in H.
  destruct H as [H|[H|[H|[H|[H|[]]]]]]; injection H as <- <-; reflexivity.
Qed.
Lemma entity_name_ok pat c x : In (pat, c) entities -> In x pat -> 97 <= x <= 122.
Proof.
  intros H. cbn [entities In] in H.
  destruct H as [H|[H|[H|[H|[H|[]]]]]]; injection H as <- _; intros X;
  vm_compute in X; intuition (subst; lia).
Qed.
Lemma esc1_hd b c k s : k = 10 \/ k = 13 -> (hd 0 (esc1 b c ++ s) =? k) = (c =? k).
Proof.
  intros K. destruct (esc1_cases b c) as [(E&_)|(pat&I&E)]; rewrite E; [reflexivity|]. cbn [app hd].
  assert (c = 34 \/ c = 38 \/ c = 39 \/ c = 60 \/ c = 62).
  { cbn [entities In] in I. destruct I as [H|[H|[H|[H|[H|[]]]]]]; injection H as _ <-; tauto. }
  lia.
Qed.
Lemma esc1_nl b k : k = 10 \/ k = 13 -> esc1 b k = [k].
Proof. intros [-> | ->]; destruct b; reflexivity. Qed.
Lemma get_loop_plain : forall n fuel b orig out v,
  (List.length v <= n)%nat -> (List.length (escape b v) < fuel)%nat ->
  get_loop fuel true orig out (escape b v) = Some (rev out ++ nl v).
Proof.
  induction n as [|n IH]; intros fuel b orig out v L F.
  - destruct v; [|cbn in L; lia]. cbn [escape flat_map nl]. rewrite app_nil_r. destruct fuel; reflexivity.
  - destruct v as [|c r].
    { cbn [escape flat_map nl]. rewrite app_nil_r. destruct fuel; reflexivity. }
    cbn [List.length] in L. rewrite escape_cons in *. destruct fuel as [|f]; [lia|].
    rewrite app_length in F.
    destruct (esc1_cases b c) as [(E&C1&C2&_)|(pat&I&E)]; rewrite E in *.
    + cbn [app get_loop nl List.length] in *.
      destruct (c =? 13) eqn:E13.
      * destruct r as [|d r']; [cbn [escape flat_map hd]; change (0 =? 10) with false; cbv iota; destruct f; reflexivity|].
        rewrite escape_cons in *. rewrite (esc1_hd b d 10) by tauto. destruct (d =? 10) eqn:D.
        -- apply N.eqb_eq in D. subst d. rewrite (esc1_nl b 10) in * by tauto. cbn [app tl List.length] in *.
           rewrite IH by lia. cbn [rev]. rewrite <- app_assoc. reflexivity.
        -- rewrite <- escape_cons in *. rewrite IH by (cbn [List.length] in *; lia). cbn [rev]. rewrite <- app_assoc. reflexivity.
      * destruct (c =? 10) eqn:E10.
        -- destruct r as [|d r']; [cbn [escape flat_map hd]; change (0 =? 13) with false; cbv iota; destruct f; reflexivity|].
          rewrite escape_cons in *. rewrite (esc1_hd b d 13) by tauto. destruct (d =? 13) eqn:D.
          ++ apply N.eqb_eq in D. subst d. rewrite (esc1_nl b 13) in * by tauto. cbn [app tl List.length] in *.
             rewrite IH by lia. cbn [rev]. rewrite <- app_assoc. reflexivity.
          ++ rewrite <- escape_cons in *. rewrite IH by (cbn [List.length] in *; lia). cbn [rev]. rewrite <- app_assoc. reflexivity.
        -- cbn [andb]. rewrite (proj2 (N.eqb_neq c 38) C1). rewrite IH by lia.
           cbn [rev]. rewrite <- app_assoc. reflexivity.
    + cbn [app]. rewrite <- app_assoc. cbn [app]. rewrite (get_entity pat c) by exact I.
      cbn [app List.length] in F. rewrite IH by lia.
      cbn [rev nl]. 
      assert (c =? 13 = false /\ c =? 10 = false) as [-> ->].
      { cbn [entities In] in I. destruct I as [H|[H|[H|[H|[H|[]]]]]]; injection H as _ <-; split; reflexivity. }
      rewrite <- app_assoc. reflexivity.
Qed.

Lemma get_str_escape b v : ~ In 0 v -> get_str true (escape b v) = nl v.
Proof.
  intros Z. unfold get_str. rewrite (get_loop_plain (List.length v)) by lia. cbn [rev app].
  apply upto_nul_id. intros X. apply Z. apply (newlines_in v (nl v) (nl_spec v) 0); [discriminate..|exact X].
Qed.
Lemma get_loop_raw : forall n fuel orig out v,
  (List.length v <= n)%nat -> (List.length v < fuel)%nat ->
  get_loop fuel false orig out v = Some (rev out ++ nl v).
Proof.
  induction n as [|n IH]; intros fuel orig out v L F.
  - destruct v; [|cbn in L; lia]. cbn [nl]. rewrite app_nil_r. destruct fuel; reflexivity.
  - destruct v as [|c r].
    { cbn [nl]. rewrite app_nil_r. destruct fuel; reflexivity. }
    cbn [List.length] in L, F. destruct fuel as [|f]; [lia|]. cbn [get_loop nl andb].
    destruct (c =? 13) eqn:E13.
    { destruct r as [|d r']; [cbn [hd]; change (0 =? 10) with false; cbv iota; destruct f; reflexivity|].
      cbn [hd tl]. cbn [List.length] in L, F.
      destruct (d =? 10) eqn:D; rewrite IH by (cbn [List.length]; lia); cbn [rev]; rewrite <- app_assoc; reflexivity. }
    destruct (c =? 10) eqn:E10.
    { destruct r as [|d r']; [cbn [hd]; change (0 =? 13) with false; cbv iota; destruct f; reflexivity|].
      cbn [hd tl]. cbn [List.length] in L, F.
      destruct (d =? 13) eqn:D; rewrite IH by (cbn [List.length]; lia); cbn [rev]; rewrite <- app_assoc; reflexivity. }
    rewrite IH by lia. cbn [rev]; rewrite <- app_assoc; reflexivity.
Qed.
Lemma get_str_raw v : ~ In 0 v -> get_str false v = nl v.
Proof.
  intros Z. unfold get_str. rewrite (get_loop_raw (List.length v)) by lia. cbn [rev app].
  apply upto_nul_id. intros X. apply Z. apply (newlines_in v (nl v) (nl_spec v) 0); [discriminate..|exact X].
Qed.
(** The characters of an escaped text. *)
Lemma escape_not_in b v x : (forall c, In c v -> c = x -> esc1 b c <> [c]) ->
  x <> 38 -> x <> 59 -> ~ (97 <= x <= 122) -> ~ In x (escape b v).
Proof.
  intros H A B C. induction v as [|c r IH]; [intros []|]. rewrite escape_cons, in_app_iff. intros [X|X].
  - destruct (esc1_cases b c) as [(E&_)|(pat&I&E)]; rewrite E in X.
    + destruct X as [X|[]]. apply (H c); [left; reflexivity|exact X|exact E].
    + destruct X as [X|X]; [congruence|]. apply in_app_iff in X. destruct X as [X|[X|[]]]; [|congruence].
      apply C. apply (entity_name_ok pat c); assumption.
  - apply IH; [|exact X]. intros c' I. apply H. right. exact I.
Qed.
Lemma escape_no_quote v : ~ In 34 (escape false v).
Proof. apply escape_not_in; [|lia..]. intros c _ -> X. vm_compute in X. discriminate X. Qed.
Lemma escape_no_lt b v : ~ In 60 (escape b v).
Proof. apply escape_not_in; [|lia..]. intros c _ -> X. destruct b; vm_compute in X; discriminate X. Qed.
Lemma escape_no_nul b v : ~ In 0 v -> ~ In 0 (escape b v).
Proof. intros Z. apply escape_not_in; [|lia..]. intros c I -> _. contradiction. Qed.

(** ** Pieces of the text *)
Lemma is_ws_iff c : is_ws c = true <-> white c.
Proof. unfold is_ws, white. lia. Qed.
Lemma skip_ws_white p s : Forall white p -> skip_ws (p ++ s) = skip_ws s.
Proof.
  induction 1 as [|c r W _ IH]; [reflexivity|]. cbn [app skip_ws]. rewrite (proj2 (is_ws_iff c) W). exact IH.
Qed.
Lemma skip_ws_stop c s : ~ white c -> skip_ws (c :: s) = c :: s.
Proof. intros H. cbn [skip_ws]. destruct (is_ws c) eqn:E; [apply is_ws_iff in E; contradiction|reflexivity]. Qed.
Lemma skip_ws_len s : (List.length (skip_ws s) <= List.length s)%nat.
Proof. induction s as [|c r IH]; cbn [skip_ws]; [lia|]. destruct (is_ws c); cbn [List.length]; lia. Qed.
Lemma skip_ws_text p s : ~ Forall white p -> exists c r, skip_ws (p ++ s) = c :: r /\ In c p /\ ~ white c.
Proof.
  induction p as [|c p IH]; intros H; [exfalso; apply H; constructor|]. cbn [app skip_ws].
  destruct (is_ws c) eqn:E.
  - apply is_ws_iff in E. destruct IH as (d&r&A&B&C).
    + intros X. apply H. constructor; assumption.
    + exists d, r. split; [exact A|]. split; [right; exact B|exact C].
  - exists c, (p ++ s). split; [reflexivity|]. split; [left; reflexivity|].
    intros X. apply is_ws_iff in X. congruence.
Qed.
Lemma white_dec p : Forall white p \/ ~ Forall white p.
Proof.
  induction p as [|c p [IH|IH]]; [left; constructor| |right; intros X; inversion X; contradiction].
  destruct (is_ws c) eqn:E; [left; constructor; [apply is_ws_iff; exact E|exact IH]|].
  right. intros X. inversion X as [|? ? Y]. apply is_ws_iff in Y. congruence.
Qed.
Lemma parse_text_one q v rest : ~ In q v -> parse_text [q] (v ++ q :: rest) = Some (v, rest).
Proof.
  induction v as [|c v IH]; intros H; cbn [app parse_text is_prefix].
  - rewrite N.eqb_refl. reflexivity.
  - assert (c <> q) by (intros ->; apply H; left; reflexivity).
    rewrite (proj2 (N.eqb_neq q c)) by congruence. cbn [andb]. rewrite IH; [reflexivity|].
    intros X. apply H. right. exact X.
Qed.
(** A stop that ends with '>' and has no other '>'. *)
Lemma parse_text_stop st v rest : ~ In 62 st -> ~ within (st ++ [62]) v ->
  parse_text (st ++ [62]) (v ++ (st ++ [62]) ++ rest) = Some (v, rest).
Proof.
  intros S1. induction v as [|c v IH]; intros H.
  - cbn [app]. destruct ((st ++ [62]) ++ rest) as [|x y] eqn:E.
    { destruct st; discriminate E. }
    cbn [parse_text]. rewrite <- E.
    rewrite (proj2 (is_prefix_iff (st ++ [62]) ((st ++ [62]) ++ rest))) by (exists rest; reflexivity).
    rewrite skipn_app, skipn_all, Nat.sub_diag. reflexivity.
  - cbn [app parse_text].
    destruct (is_prefix (st ++ [62]) (c :: v ++ (st ++ [62]) ++ rest)) eqn:E.
    + exfalso. apply is_prefix_iff in E. destruct E as (t&E).
      change (c :: v ++ (st ++ [62]) ++ rest) with ((c :: v) ++ (st ++ [62]) ++ rest) in E.
      rewrite <- !app_assoc in E. cbn [app] in E.
      (* st ++ 62 :: t = c :: v ++ st ++ 62 :: rest *)
      assert (L : (List.length st < List.length (c :: v))%nat \/ (List.length (c :: v) <= List.length st)%nat) by lia.
      destruct L as [L|L].
      * apply H. exists [], (skipn (S (List.length st)) (c :: v)). cbn [app].
        assert (G : firstn (List.length st + 1) (st ++ 62 :: t) = st ++ [62]) by (rewrite firstn_app_2; reflexivity).
        replace (S (List.length st)) with (List.length st + 1)%nat by lia.
        rewrite <- G, <- E. change (c :: v ++ st ++ 62 :: rest) with ((c :: v) ++ st ++ 62 :: rest).
        rewrite firstn_app. replace (List.length st + 1 - List.length (c :: v))%nat with 0%nat by lia.
        rewrite firstn_O, app_nil_r. symmetry. apply firstn_skipn.
      * (* the '>' at position length st lies inside st *)
        assert (F : nth (List.length st) (st ++ 62 :: t) 0 = nth (List.length st) ((c :: v) ++ st ++ 62 :: rest) 0) by (rewrite <- E; reflexivity).
        rewrite app_nth2 in F by lia. rewrite Nat.sub_diag in F. cbn [nth] in F.
        rewrite app_nth2 in F by lia. rewrite app_nth1 in F by (cbn [List.length] in *; lia).
        apply S1. rewrite F. apply nth_In. cbn [List.length] in *. lia.
    + rewrite IH; [reflexivity|]. intros (a&b&X). apply H. exists (c :: a), b. rewrite X. reflexivity.
Qed.

(** Names. *)
Lemma name_start_iff c : name_start c = true <-> letter c.
Proof. unfold name_start, letter. lia. Qed.
Lemma name_char_iff c : name_char c = true <-> in_name c.
Proof. unfold name_char, in_name, name_start, letter. lia. Qed.
Lemma span_all P r x rest : Forall (fun c => P c = true) r -> P x = false ->
  span P (r ++ x :: rest) = (r, x :: rest).
Proof.
  induction 1 as [|c r A _ IH]; intros B; cbn [app span]; [rewrite B; reflexivity|].
  rewrite A, (IH B). reflexivity.
Qed.
Lemma parse_name_ok n x rest : xml_name n -> ~ in_name x -> parse_name (n ++ x :: rest) = Some (n, x :: rest).
Proof.
  intros (c&r&->&A&B) X. cbn [app parse_name]. rewrite (proj2 (name_start_iff c) A).
  rewrite span_all; [reflexivity| |].
  - revert B. apply Forall_impl. intros a. apply name_char_iff.
  - destruct (name_char x) eqn:E; [apply name_char_iff in E; contradiction|reflexivity].
Qed.
Lemma letter_not_white c : letter c -> ~ white c.
Proof. unfold letter, white. lia. Qed.
Lemma name_no_nul n : xml_name n -> ~ In 0 n.
Proof.
  intros (c&r&->&A&B) [X|X]; [subst; unfold letter in A; lia|].
  rewrite Forall_forall in B. specialize (B 0 X). unfold in_name, letter in B. lia.
Qed.
Lemma eqb_bytes_iff : forall a b, eqb_bytes a b = true <-> a = b.
Proof.
  induction a as [|x a IH]; intros [|y b]; cbn [eqb_bytes]; try (split; congruence).
  rewrite andb_true_iff, IH, N.eqb_eq. split; [intros [-> ->]; reflexivity|intros X; injection X; tauto].
Qed.
Lemma eqb_bytes_refl a : eqb_bytes a a = true.
Proof. apply eqb_bytes_iff. reflexivity. Qed.
Lemma has_attr_iff n attrs : has_attr n attrs = true <-> In n (map fst attrs).
Proof.
  unfold has_attr. rewrite existsb_exists, in_map_iff. split; intros (x&A&B); exists x.
  - apply eqb_bytes_iff in B. tauto.
  - split; [exact B|]. apply eqb_bytes_iff. exact A.
Qed.
(** Attributes. *)
Definition nl_attr (a : list N * list N) : list N * list N := (fst a, nl (snd a)).
Lemma parse_attr_ok n v rest : xml_name n -> ~ In 0 v ->
  parse_attr (n ++ [61; 34] ++ escape false v ++ [34] ++ rest) = Some (n, nl v, rest).
Proof.
  intros A Z. unfold parse_attr. cbn [app].
  rewrite (parse_name_ok n 61) by (try exact A; unfold in_name, letter; lia).
  rewrite (skip_ws_stop 61) by (unfold white; lia). rewrite (skip_ws_stop 34) by (unfold white; lia).
  change ((34 =? 34) || (34 =? 39)) with true. cbv iota.
  rewrite parse_text_one by apply escape_no_quote. rewrite get_str_escape by exact Z. reflexivity.
Qed.
Lemma print_attr_eq n v : print_attr (n, v) = 32 :: n ++ [61; 34] ++ escape false v ++ [34].
Proof. reflexivity. Qed.
Lemma parse_attrs_ok : forall attrs fuel acc tail res,
  Forall (fun a => xml_name (fst a) /\ ~ In 0 (snd a)) attrs ->
  NoDup (map fst (acc ++ attrs)) -> (List.length (flat_map print_attr attrs ++ tail) < fuel)%nat ->
  (forall f acc', (0 < f)%nat -> parse_attrs f acc' tail = res acc') ->
  parse_attrs fuel acc (flat_map print_attr attrs ++ tail) = res (acc ++ map nl_attr attrs).
Proof.
  induction attrs as [|[n v] attrs IH]; intros fuel acc tail res F D L H.
  - cbn [flat_map app map]. rewrite app_nil_r. apply H. lia.
  - cbn [flat_map]. inversion_clear F as [|? ? [A Z] F']. cbn [fst snd] in *.
    destruct fuel as [|f]; [lia|]. cbn [parse_attrs]. rewrite print_attr_eq. cbn [app]. 
    cbn [skip_ws]. change (is_ws 32) with true. cbv iota.
    destruct A as (c&r&->&A1&A2). cbn [app]. rewrite (skip_ws_stop c) by (apply letter_not_white, A1).
    rewrite (proj2 (name_start_iff c) A1).
    rewrite <- !app_assoc. cbn [app]. rewrite <- !app_assoc. cbn [app].
    pose proof (parse_attr_ok (c :: r) v (flat_map print_attr attrs ++ tail)) as P.
    cbn [app] in P. rewrite P; [|exists c, r; tauto|exact Z]. clear P.
    assert (HA : has_attr (c :: r) acc = false).
    { destruct (has_attr (c :: r) acc) eqn:E; [|reflexivity]. exfalso. apply has_attr_iff in E.
      rewrite map_app in D. cbn [map fst] in D. apply NoDup_remove_2 in D. apply D. apply in_app_iff. left. exact E. }
    rewrite HA. rewrite (IH f (acc ++ [(c :: r, nl v)]) tail res); [|exact F'| | |exact H].
    + rewrite <- app_assoc. reflexivity.
    + rewrite <- app_assoc. cbn [app]. rewrite map_app in *. exact D.
    + cbn [flat_map] in L. rewrite !app_length in *. cbn [List.length print_attr app] in L.
      rewrite print_attr_eq in L. cbn [List.length] in L. lia.
Qed.
Lemma attrs_end f acc rest : (0 < f)%nat -> parse_attrs f acc (62 :: rest) = AOk acc false rest.
Proof. destruct f; [lia|reflexivity]. Qed.
Lemma attrs_closed f acc rest : (0 < f)%nat -> parse_attrs f acc (47 :: 62 :: rest) = AOk acc true rest.
Proof. destruct f; [lia|reflexivity]. Qed.

(** ** Trees *)
Section NodeInd.
Variable P : node -> Prop.
Hypothesis He : forall n attrs kids, Forall P kids -> P (Elem n attrs kids).
Hypothesis Ht : forall v, P (Text v).
Hypothesis Hc : forall v, P (Cdata v).
Hypothesis Hm : forall v, P (Comment v).
Hypothesis Hd : forall v, P (Decl v).
Hypothesis Hu : forall v, P (Unknown v).
Fixpoint node_rect' (k : node) : P k :=
  match k with
  | Elem n a kids => He n a kids ((fix go (l : list node) : Forall P l :=
      match l with [] => Forall_nil P | x :: r => Forall_cons x (node_rect' x) (go r) end) kids)
  | Text v => Ht v | Cdata v => Hc v | Comment v => Hm v | Decl v => Hd v | Unknown v => Hu v
  end.
End NodeInd.

(** What is read of a tree, as a function. *)
Definition flush (p : list N) : list node := match skip_ws p with [] => [] | _ => [Text (nl p)] end.
Fixpoint norm (k : node) : node :=
  match k with
  | Elem n a kids =>
    Elem n (map nl_attr a) ((fix go (p : list N) (l : list node) : list node :=
      match l with
      | [] => flush p
      | Text v :: r => go (p ++ v) r
      | x :: r => flush p ++ norm x :: go [] r
      end) [] kids)
  | Text v => Text (nl v) | Cdata v => Cdata (nl v) | Comment v => Comment (nl v)
  | Decl v => Decl (nl v) | Unknown v => Unknown (nl v)
  end.
Fixpoint norms (p : list N) (l : list node) : list node :=
  match l with
  | [] => flush p
  | Text v :: r => norms (p ++ v) r
  | x :: r => flush p ++ norm x :: norms [] r
  end.
Lemma norm_elem n a kids : norm (Elem n a kids) = Elem n (map nl_attr a) (norms [] kids).
Proof.
  reflexivity.
Qed.
Lemma norms_node p k r : (forall v, k <> Text v) -> norms p (k :: r) = flush p ++ norm k :: norms [] r.
Proof. destruct k; intros H; try reflexivity. exfalso. exact (H _ eq_refl). Qed.
Lemma flush_white p : Forall white p -> flush p = [].
Proof. intros H. unfold flush. rewrite <- (app_nil_r p), skip_ws_white by exact H. reflexivity. Qed.
Lemma flush_text p : ~ Forall white p -> flush p = [Text (nl p)].
Proof.
  intros H. unfold flush. destruct (skip_ws_text p [] H) as (c&r&E&_). rewrite app_nil_r in E. rewrite E. reflexivity.
Qed.
Lemma flush_spec p : same_text p (flush p).
Proof.
  destruct (white_dec p) as [W|W]; [rewrite (flush_white p W); constructor; exact W|].
  rewrite (flush_text p W). constructor; [exact W|apply nl_spec].
Qed.
Fixpoint height (k : node) : nat :=
  match k with
  | Elem _ _ (x :: r) => S (Nat.max (height x) ((fix go (l : list node) : nat :=
      match l with [] => O | y :: r' => Nat.max (height y) (go r') end) r))
  | _ => O
  end.
Fixpoint heights (l : list node) : nat := match l with [] => O | y :: r' => Nat.max (height y) (heights r') end.
Lemma height_elem n a k r : height (Elem n a (k :: r)) = S (heights (k :: r)).
Proof.
  cbn [height heights]. do 2 f_equal.
Qed.

(** ** The printer *)
Lemma print_elem st n a kids : print st (Elem n a kids) =
  (let '(o1, st1) := open_element st n a in
   let '(o2, st2) := print_all st1 kids in
   let '(o3, st3) := close_element st2 n in (o1 ++ o2 ++ o3, st3)).
Proof.
  cbn [print]. destruct (open_element st n a) as [o1 st1].
  assert (X : forall l st0, (fix go (st : pst) (l : list node) : list N * pst :=
      match l with
      | [] => ([], st)
      | k :: r => let '(a, st') := print st k in let '(b, st'') := go st' r in (a ++ b, st'')
      end) st0 l = print_all st0 l).
  { induction l as [|k r IH]; intros st0; [reflexivity|]. cbn [print_all]. destruct (print st0 k) as [x y].
    rewrite IH. reflexivity. }
  rewrite X. reflexivity.
Qed.

(** The text of an element without the line feed after the outermost one. *)
Definition gap (st : pst) : list N := match tdepth st with O => 10 :: spaces (depth st) | _ => [] end.
Definition lead (st : pst) : list N := if first st then spaces (depth st) else gap st.
Definition inner (st : pst) : pst := mkSt false false (S (depth st)) (tdepth st).
Definition ebody (st : pst) (n : list N) (a : list (list N * list N)) (kids : list node) : list N :=
  lead st ++ 60 :: n ++ flat_map print_attr a ++
  match kids with
  | [] => [47; 62]
  | _ => let '(o, st2) := print_all (inner st) kids in
         62 :: o ++ (match tdepth st2 with O => 10 :: spaces (depth st) | _ => [] end) ++ [60; 47] ++ n ++ [62]
  end.
Lemma spaces_white n : Forall white (spaces n).
Proof.
  unfold spaces. apply Forall_forall. intros x H. apply in_flat_map in H. destruct H as (y&_&H).
  left. vm_compute in H. intuition congruence.
Qed.
Lemma lead_white st : Forall white (lead st).
Proof.
  unfold lead, gap. destruct (first st); [apply spaces_white|]. destruct (tdepth st); [|constructor].
  constructor; [right; lia|apply spaces_white].
Qed.
(** The state after a node: not just opened, same depth. *)
Lemma print_seal st k : print st k =
  (seal st ++ fst (print (mkSt false (first st) (depth st) (tdepth st)) k),
   snd (print (mkSt false (first st) (depth st) (tdepth st)) k)).
Proof.
  destruct st as [j f d t]. destruct k; try (destruct j; reflexivity).
  rewrite !print_elem. unfold open_element, prepare. cbn [just first depth tdepth seal].
  destruct (print_all _ kids) as [o2 st2]. destruct (close_element st2 name) as [o3 st3]. cbn [fst snd].
  destruct j; reflexivity.
Qed.
Lemma print_state st k : just (snd (print st k)) = false /\ depth (snd (print st k)) = depth st.
Proof.
  revert st. induction k as [n a kids IH|v|v|v|v|v] using node_rect'; intros st; try (split; reflexivity).
  rewrite print_elem. unfold open_element, prepare. cbn [just first depth tdepth].
  assert (X : forall l st0, Forall (fun k => forall st, just (snd (print st k)) = false /\ depth (snd (print st k)) = depth st) l ->
    depth (snd (print_all st0 l)) = depth st0).
  { induction l as [|k r IHl]; intros st0 F; [reflexivity|]. inversion_clear F as [|? ? A F']. cbn [print_all].
    destruct (A st0) as [_ D]. destruct (print st0 k) as [x st1]. cbn [snd] in D.
    specialize (IHl st1 F'). destruct (print_all st1 r) as [y st2]. cbn [snd] in *. congruence. }
  specialize (X kids (mkSt true false (S (depth st)) (tdepth st)) IH).
  destruct (print_all _ kids) as [o2 st2]. cbn [snd depth] in X. unfold close_element. cbn [snd just depth].
  rewrite X. split; reflexivity.
Qed.
Lemma print_all_state l : forall st, just st = false ->
  just (snd (print_all st l)) = false /\ depth (snd (print_all st l)) = depth st.
Proof.
  induction l as [|k r IH]; intros st J; [split; [exact J|reflexivity]|]. cbn [print_all].
  destruct (print_state st k) as [A B]. destruct (print st k) as [x st1]. cbn [snd] in *.
  destruct (IH st1 A) as [C D]. destruct (print_all st1 r) as [y st2]. cbn [snd] in *. split; congruence.
Qed.
Lemma print_elem_body st n a kids : just st = false ->
  fst (print st (Elem n a kids)) = ebody st n a kids ++ (match depth st with O => [10] | _ => [] end).
Proof.
  intros J. rewrite print_elem. unfold open_element, prepare. cbn [just first depth tdepth].
  unfold seal. rewrite J. cbn [app]. unfold ebody.
  replace (if first st then spaces (depth st) else match tdepth st with O => 10 :: spaces (depth st) | S _ => [] end) with (lead st) by reflexivity.
  destruct kids as [|k r].
  - cbn [print_all]. unfold close_element. cbn [just depth pred fst]. rewrite <- !app_assoc. cbn [app].
    rewrite <- !app_assoc. reflexivity.
  - cbn [print_all]. rewrite (print_seal _ k). unfold seal. cbn [just first depth tdepth].
    change (mkSt false false (S (depth st)) (tdepth st)) with (inner st).
    pose proof (print_state (inner st) k) as [A B]. destruct (print (inner st) k) as [x st1]. cbn [fst snd] in *.
    destruct (print_all_state r st1 A) as [C D]. destruct (print_all st1 r) as [y st2]. cbn [fst snd] in *.
    unfold close_element. rewrite C, D, B. cbn [inner depth pred fst]. rewrite <- !app_assoc. cbn [app].
    rewrite <- !app_assoc. cbn [app]. rewrite <- !app_assoc. cbn [app]. rewrite <- !app_assoc. reflexivity.
Qed.

(** ** Steps of the reader *)
Lemma nodes_ws f d doc acc w s : Forall white w -> nodes f d doc acc (w ++ 60 :: s) = nodes f d doc acc (60 :: s).
Proof.
  intros W. destruct f as [|f]; [reflexivity|]. cbn [nodes]. rewrite skip_ws_white by exact W.
  rewrite !skip_ws_stop by (unfold white; lia). change (60 =? 60) with true. cbv iota zeta. reflexivity.
Qed.
Lemma not_lt_prefix c r sub : c <> 60 -> is_prefix (60 :: sub) (c :: r) = false.
Proof. intros H. cbn [is_prefix]. rewrite (proj2 (N.eqb_neq 60 c)) by congruence. reflexivity. Qed.
Lemma white_escape b p : Forall white p -> escape b p = p.
Proof.
  induction 1 as [|c r W _ IH]; [reflexivity|]. rewrite escape_cons, IH.
  destruct (esc1_cases b c) as [(E&_)|(pat&I&_)]; [rewrite E; reflexivity|].
  exfalso. cbn [entities In] in I. unfold white in W.
  destruct I as [H|[H|[H|[H|[H|[]]]]]]; injection H as _ <-; lia.
Qed.
Lemma escape_white b p : Forall white (escape b p) -> Forall white p.
Proof.
  induction p as [|c r IH]; [constructor|]. rewrite escape_cons. intros F. apply Forall_app in F. destruct F as [A B].
  constructor; [|apply IH, B]. destruct (esc1_cases b c) as [(E&_)|(pat&_&E)]; rewrite E in A; inversion_clear A; [assumption|].
  match goal with H : white 38 |- _ => unfold white in H; lia end.
Qed.
Lemma nodes_text f d doc acc p c s : ~ Forall white p -> ~ In 0 p ->
  nodes (S f) d doc acc (escape true p ++ 60 :: c :: s) = nodes f d doc (acc ++ [Text (nl p)]) (60 :: c :: s).
Proof.
  intros W Z. cbn [nodes].
  destruct (skip_ws_text (escape true p) (60 :: c :: s)) as (x&r&E&I&_).
  { intros X. apply W. apply escape_white in X. exact X. }
  rewrite E. assert (X : x <> 60) by (intros ->; exact (escape_no_lt true p I)).
  cbv zeta.
  change (T"<?") with [60; 63]. change (T"<!--") with [60; 33; 45; 45].
  change (T"<![CDATA[") with [60; 33; 91; 67; 68; 65; 84; 65; 91]. change (T"<!") with [60; 33].
  rewrite !not_lt_prefix by exact X. rewrite (proj2 (N.eqb_neq x 60) X).
  change (T"<") with [60]. rewrite parse_text_one by apply escape_no_lt. rewrite get_str_escape by exact Z. reflexivity.
Qed.
Definition after_tag (f : nat) (d : N) (doc : bool) (kids : list node) (name : list N) (x : ares) : nres :=
  match x with
  | ALoop => NLoop
  | AErr e => NErr e
  | AOk attrs true rest => nodes f d doc (kids ++ [Elem name attrs []]) rest
  | AOk attrs false rest =>
    match rest with
    | [] => NErr EMismatch
    | _ =>
      if d + 1 =? max_depth then NErr EDepth else
      match nodes f (d + 1) false [] rest with
      | EndTag inner name' rest' =>
        if eqb_bytes name' name then nodes f d doc (kids ++ [Elem name attrs inner]) rest' else NErr EMismatch
      | Stop _ => NErr EParsing
      | NErr e => NErr e
      | NLoop => NLoop
      end
    end
  end.
Lemma nodes_tag f d doc acc n x rest : xml_name n -> ~ in_name x ->
  nodes (S f) d doc acc (60 :: n ++ x :: rest) =
  after_tag f d doc acc n (parse_attrs (S (List.length (x :: rest))) [] (x :: rest)).
Proof.
  intros A X. cbn [nodes]. rewrite skip_ws_stop by (unfold white; lia). cbv zeta.
  pose proof (parse_name_ok n x rest A X) as PN. destruct A as (c&r&->&A1&A2). cbn [app] in *.
  assert (E : c <> 63 /\ c <> 33 /\ c <> 47) by (unfold letter in A1; lia). destruct E as (E1&E2&E3).
  change (T"<?") with [60; 63]. change (T"<!--") with [60; 33; 45; 45].
  change (T"<![CDATA[") with [60; 33; 91; 67; 68; 65; 84; 65; 91]. change (T"<!") with [60; 33].
  cbn [is_prefix]. rewrite (proj2 (N.eqb_neq 63 c)) by congruence. rewrite (proj2 (N.eqb_neq 33 c)) by congruence.
  rewrite !andb_false_r. change (60 =? 60) with true. cbn [andb]. cbv iota.
  rewrite (skip_ws_stop c) by (apply letter_not_white, A1). cbn [hd tl].
  rewrite (proj2 (N.eqb_neq c 47) E3). rewrite PN. unfold after_tag.
  destruct (parse_attrs _ [] (x :: rest)) as [attrs [|] rest'|e|]; reflexivity.
Qed.
Lemma nodes_close f d doc acc n rest : xml_name n ->
  nodes (S f) d doc acc (60 :: 47 :: n ++ 62 :: rest) = EndTag acc n rest.
Proof.
  intros A. cbn [nodes]. rewrite skip_ws_stop by (unfold white; lia). cbv zeta.
  pose proof (parse_name_ok n 62 rest A) as PN. specialize (PN ltac:(unfold in_name, letter; lia)).
  change (is_prefix (T"<?") (60 :: 47 :: n ++ 62 :: rest)) with false.
  change (is_prefix (T"<!--") (60 :: 47 :: n ++ 62 :: rest)) with false.
  change (is_prefix (T"<![CDATA[") (60 :: 47 :: n ++ 62 :: rest)) with false.
  change (is_prefix (T"<!") (60 :: 47 :: n ++ 62 :: rest)) with false.
  change (60 =? 60) with true. cbv iota. rewrite (skip_ws_stop 47) by (unfold white; lia).
  cbn [hd tl]. change (47 =? 47) with true. cbv iota. rewrite PN.
  rewrite attrs_end by lia. reflexivity.
Qed.
Lemma nodes_comment f d doc acc v rest : ~ In 0 v -> ~ within (T"-->") v ->
  nodes (S f) d doc acc (60 :: 33 :: 45 :: 45 :: v ++ 45 :: 45 :: 62 :: rest) = nodes f d doc (acc ++ [Comment (nl v)]) rest.
Proof.
  intros Z W.
  change (nodes (S f) d doc acc (60 :: 33 :: 45 :: 45 :: v ++ 45 :: 45 :: 62 :: rest)) with
    (match read_special ([45; 45] ++ [62]) (v ++ ([45; 45] ++ [62]) ++ rest) Comment EComment with
     | inl (n, rest) => nodes f d doc (acc ++ [n]) rest | inr e => NErr e end).
  unfold read_special. rewrite parse_text_stop; [|cbn; lia|exact W]. rewrite get_str_raw by exact Z. reflexivity.
Qed.
Lemma nodes_cdata f d doc acc v rest : ~ In 0 v -> ~ within (T"]]>") v ->
  nodes (S f) d doc acc (60 :: 33 :: 91 :: 67 :: 68 :: 65 :: 84 :: 65 :: 91 :: v ++ 93 :: 93 :: 62 :: rest) = nodes f d doc (acc ++ [Cdata (nl v)]) rest.
Proof.
  intros Z W.
  change (nodes (S f) d doc acc (60 :: 33 :: 91 :: 67 :: 68 :: 65 :: 84 :: 65 :: 91 :: v ++ 93 :: 93 :: 62 :: rest)) with
    (match read_special ([93; 93] ++ [62]) (v ++ ([93; 93] ++ [62]) ++ rest) Cdata ECdata with
     | inl (n, rest) => nodes f d doc (acc ++ [n]) rest | inr e => NErr e end).
  unfold read_special. rewrite parse_text_stop; [|cbn; lia|exact W]. rewrite get_str_raw by exact Z. reflexivity.
Qed.
Lemma nodes_unknown f d doc acc v rest : ~ In 0 v -> ~ In 62 v ->
  (forall r, v <> T"--" ++ r) -> (forall r, v <> T"[CDATA[" ++ r) ->
  nodes (S f) d doc acc (60 :: 33 :: v ++ 62 :: rest) = nodes f d doc (acc ++ [Unknown (nl v)]) rest.
Proof.
  intros Z W N1 N2.
  assert (X : forall sub, ~ In 62 sub -> (forall r, v <> sub ++ r) -> is_prefix sub (v ++ 62 :: rest) = false).
  { intros sub I H. apply is_prefix_false. intros (t&E).
    revert sub I H E. clear - W. induction v as [|c v IH]; intros sub I H E.
    - destruct sub as [|x sub]; [exact (H [] eq_refl)|]. injection E as <- _. apply I. left. reflexivity.
    - destruct sub as [|x sub]; [exact (H (c :: v) eq_refl)|]. injection E as -> E.
      apply (IH ltac:(intros Y; apply W; right; exact Y) sub); [intros Y; apply I; right; exact Y| |exact E].
      intros r Y. apply (H r). cbn [app]. congruence. }
  cbn [nodes]. rewrite skip_ws_stop by (unfold white; lia). cbv zeta.
  change (is_prefix (T"<?") (60 :: 33 :: v ++ 62 :: rest)) with false.
  change (is_prefix (T"<!--") (60 :: 33 :: v ++ 62 :: rest)) with (is_prefix (T"--") (v ++ 62 :: rest)).
  change (is_prefix (T"<![CDATA[") (60 :: 33 :: v ++ 62 :: rest)) with (is_prefix (T"[CDATA[") (v ++ 62 :: rest)).
  change (is_prefix (T"<!") (60 :: 33 :: v ++ 62 :: rest)) with true.
  rewrite !X by (try assumption; vm_compute; intuition congruence). cbv iota.
  cbn [skipn]. unfold read_special. change (T">") with [62]. rewrite parse_text_one by exact W.
  rewrite get_str_raw by exact Z. reflexivity.
Qed.

(** ** Reading what was printed *)
Definition body (st : pst) (k : node) : list N :=
  match k with Elem n a kids => ebody st n a kids | _ => fst (print st k) end.
Definition reads_node (k : node) : Prop := forall st f d doc acc rest,
  just st = false -> tree k -> d < 100 -> (forall v, k <> Text v) ->
  (List.length (body st k ++ rest) <= f)%nat ->
  nodes (S f) d doc acc (body st k ++ rest) =
  (if d + N.of_nat (height k) <? 100 then nodes f d doc (acc ++ [norm k]) rest else NErr EDepth).
Lemma body_lt st k : tree k -> (forall v, k <> Text v) -> just st = false ->
  exists w c b, body st k = w ++ 60 :: c :: b /\ Forall white w /\ (first st = false -> tdepth st <> O -> w = []).
Proof.
  intros Tr NT J. assert (LW := lead_white st).
  assert (L0 : first st = false -> tdepth st <> O -> lead st = []).
  { intros F D. unfold lead, gap. rewrite F. destruct (tdepth st); [congruence|reflexivity]. }
  destruct k as [n a kids|v|v|v|v|v]; cbn [body].
  - unfold ebody. inversion_clear Tr as [? ? ? (c&r&->&_) _ _ _| | | |]. cbn [app].
    eexists (lead st), c, _. split; [reflexivity|]. tauto.
  - exfalso. exact (NT v eq_refl).
  - cbn [print fst]. unfold seal. rewrite J. exists [], 33, (T"[CDATA[" ++ v ++ T"]]>"). split; [reflexivity|]. split; [constructor|reflexivity].
  - cbn [print prepare fst]. unfold seal. rewrite J. exists (lead st), 33, (T"--" ++ v ++ T"-->"). split; [reflexivity|tauto].
  - inversion Tr.
  - cbn [print prepare fst]. unfold seal. rewrite J. exists (lead st), 33, (v ++ T">"). split; [reflexivity|tauto].
Qed.
Lemma print_first st k : first st = false -> first (snd (print st k)) = false.
Proof.
  revert st. induction k as [n a kids IH|v|v|v|v|v] using node_rect'; intros st Fs; try reflexivity; try exact Fs.
  rewrite print_elem. unfold open_element, prepare. cbn [just first depth tdepth].
  assert (X : forall l st0, Forall (fun k => forall st, first st = false -> first (snd (print st k)) = false) l ->
    first st0 = false -> first (snd (print_all st0 l)) = false).
  { induction l as [|k r IHl]; intros st0 F E; [exact E|]. inversion_clear F as [|? ? A F']. cbn [print_all].
    specialize (A st0 E). destruct (print st0 k) as [x st1]. cbn [snd] in A.
    specialize (IHl st1 F' A). destruct (print_all st1 r) as [y st2]. exact IHl. }
  specialize (X kids (mkSt true false (S (depth st)) (tdepth st)) IH eq_refl).
  destruct (print_all _ kids) as [o2 st2]. exact X.
Qed.
Lemma body_print st k : depth st <> O -> just st = false -> fst (print st k) = body st k.
Proof.
  intros D J. destruct k; try reflexivity. cbn [body]. rewrite print_elem_body by exact J.
  destruct (depth st); [congruence|]. apply app_nil_r.
Qed.
Lemma reads_kids l : Forall reads_node l -> forall st f d acc p name w rest,
  just st = false -> first st = false -> Forall tree l -> d < 100 -> depth st <> O ->
  (~ Forall white p -> tdepth st <> O) -> ~ In 0 p -> xml_name name -> Forall white w ->
  (tdepth (snd (print_all st l)) <> O -> w = []) ->
  (List.length (escape true p ++ fst (print_all st l) ++ w ++ 60 :: 47 :: name ++ 62 :: rest)%N < f)%nat ->
  nodes f d false acc (escape true p ++ fst (print_all st l) ++ w ++ 60 :: 47 :: name ++ 62 :: rest) =
  (if d + N.of_nat (heights l) <? 100 then EndTag (acc ++ norms p l) name rest else NErr EDepth).
Proof.
  induction l as [|k r IH]; intros HP st f d acc p name w rest J Fs Tr D Dp Hp Z Nm W Hw L.
  - cbn [print_all fst snd app heights norms] in *. change (N.of_nat 0) with 0. rewrite N.add_0_r.
    rewrite (proj2 (N.ltb_lt d 100) D). destruct f as [|f]; [lia|].
    destruct (white_dec p) as [Wp|Wp].
    + rewrite (white_escape true p Wp), flush_white, app_nil_r by exact Wp.
      rewrite app_assoc. rewrite nodes_ws by (apply Forall_app; tauto). apply nodes_close, Nm.
    + rewrite (Hw (Hp Wp)) in *. cbn [app] in *. rewrite nodes_text by assumption. rewrite flush_text by exact Wp.
      rewrite !app_length in L. cbn [List.length] in L. destruct f as [|f]; [lia|]. apply nodes_close, Nm.
  - inversion_clear HP as [|? ? Hk HP']. inversion_clear Tr as [|? ? Tk Tr'].
    assert (CT : (exists v, k = Text v) \/ forall v, k <> Text v).
    { destruct k; try (right; intros ? X; discriminate X). left. eexists. reflexivity. }
    destruct CT as [[v ->]|NT].
    { cbn [print_all print] in *. unfold seal in *. rewrite J in *. cbn [app] in *.
      set (st1 := mkSt false (first st) (depth st) (depth st)) in *.
      specialize (IH HP' st1 f d acc (p ++ v) name w rest).
      destruct (print_all st1 r) as [o st2]. cbn [fst snd] in *.
      rewrite escape_app, <- !app_assoc in IH. rewrite <- !app_assoc in L. rewrite <- !app_assoc.
      cbn [heights height norms]. rewrite Nat.max_0_l. apply IH; try assumption; try reflexivity.
      - intros _. exact Dp.
      - rewrite in_app_iff. inversion_clear Tk. tauto. }
    destruct (body_lt st k Tk NT J) as (lw&c&b&EB&LW&L0).
    cbn [print_all] in *. pose proof (body_print st k Dp J) as BP. pose proof (print_state st k) as [J1 D1].
    pose proof (print_first st k Fs) as F1.
    destruct (print st k) as [o st1]. cbn [fst snd] in *. subst o.
    specialize (IH HP' st1). destruct (print_all st1 r) as [o2 st2]. cbn [fst snd] in *.
    rewrite <- !app_assoc in L. rewrite <- !app_assoc.
    assert (Q : forall f' acc', (List.length (body st k ++ o2 ++ w ++ 60 :: 47 :: name ++ 62 :: rest)%N < f')%nat ->
      nodes f' d false acc' (body st k ++ o2 ++ w ++ 60 :: 47 :: name ++ 62 :: rest) =
      (if d + N.of_nat (heights (k :: r)) <? 100 then EndTag (acc' ++ norm k :: norms [] r) name rest else NErr EDepth)).
    { intros f' acc' L'. destruct f' as [|f']; [lia|]. rewrite (Hk st f' d false acc') by (try assumption; lia).
      cbn [heights]. destruct (d + N.of_nat (height k) <? 100) eqn:E1.
      2:{ replace (d + N.of_nat (Nat.max (height k) (heights r)) <? 100) with false
            by (symmetry; apply N.ltb_ge; apply N.ltb_ge in E1; lia). reflexivity. }
      specialize (IH f' d (acc' ++ [norm k]) [] name w rest). cbn [escape flat_map app] in IH.
      rewrite IH; clear IH; try assumption.
      - replace (d + N.of_nat (Nat.max (height k) (heights r)) <? 100) with (d + N.of_nat (heights r) <? 100).
        + rewrite <- app_assoc. reflexivity.
        + apply N.ltb_lt in E1. destruct (d + N.of_nat (heights r) <? 100) eqn:E2; symmetry;
          [apply N.ltb_lt in E2; apply N.ltb_lt; lia|apply N.ltb_ge in E2; apply N.ltb_ge; lia].
      - rewrite D1. exact Dp.
      - intros X. exfalso. apply X. constructor.
      - intros [].
      - rewrite app_length, EB in L'. rewrite app_length in L'. cbn [List.length] in L'. lia. }
    rewrite norms_node by exact NT.
    destruct (white_dec p) as [Wp|Wp].
    + rewrite (white_escape true p Wp) in *. rewrite flush_white by exact Wp. cbn [app].
      rewrite EB, <- !app_assoc. cbn [app]. rewrite (app_assoc p lw), nodes_ws by (apply Forall_app; tauto).
      rewrite <- (nodes_ws f d false acc lw) by exact LW.
      match goal with |- nodes _ _ _ _ (lw ++ ?x) = _ => replace (lw ++ x) with (body st k ++ o2 ++ w ++ 60 :: 47 :: name ++ 62 :: rest) by (rewrite EB, <- !app_assoc; reflexivity) end.
      apply Q. rewrite app_length in L. lia.
    + specialize (L0 Fs (Hp Wp)). subst lw. cbn [app] in EB. rewrite flush_text by exact Wp. destruct f as [|f]; [lia|].
      rewrite EB. cbn [app]. rewrite nodes_text by assumption.
      change (60 :: c :: b ++ o2 ++ w ++ 60 :: 47 :: name ++ 62 :: rest) with ((60 :: c :: b) ++ o2 ++ w ++ 60 :: 47 :: name ++ 62 :: rest).
      rewrite <- EB. rewrite Q; [rewrite <- app_assoc; reflexivity|].
      rewrite app_length in L.
      assert (0 < List.length (escape true p))%nat by (destruct (escape true p) eqn:EE; [exfalso; apply Wp; apply (escape_white true); rewrite EE; constructor|cbn; lia]). lia.
Qed.
Lemma reads_all k : reads_node k.
Proof.
  induction k as [n a kids IH|v|v|v|v|v] using node_rect'; intros st f d doc acc rest J Tr D NT L; cbn [body] in *.
  2: exfalso; exact (NT v eq_refl).
  4: inversion Tr.
  2-4: cbn [height]; change (N.of_nat 0) with 0; rewrite N.add_0_r, (proj2 (N.ltb_lt d 100) D).
  2:{ cbn [print fst]. unfold seal. rewrite J. inversion_clear Tr. cbn [app norm]. rewrite <- !app_assoc.
      apply nodes_cdata; assumption. }
  2:{ cbn [print prepare fst]. unfold seal. rewrite J. inversion_clear Tr. cbn [app norm]. rewrite <- !app_assoc.
      change (if first st then spaces (depth st) else match tdepth st with O => 10 :: spaces (depth st) | S _ => [] end) with (lead st).
      change (T"<!--" ++ v ++ T"-->" ++ rest) with (60 :: 33 :: 45 :: 45 :: v ++ 45 :: 45 :: 62 :: rest).
      rewrite nodes_ws by apply lead_white. apply nodes_comment; assumption. }
  2:{ cbn [print prepare fst]. unfold seal. rewrite J. inversion_clear Tr. cbn [app norm]. rewrite <- !app_assoc.
      change (if first st then spaces (depth st) else match tdepth st with O => 10 :: spaces (depth st) | S _ => [] end) with (lead st).
      change (T"<!" ++ v ++ T">" ++ rest) with (60 :: 33 :: v ++ 62 :: rest).
      rewrite nodes_ws by apply lead_white. apply nodes_unknown; assumption. }
  inversion_clear Tr as [? ? ? Nm ND Fa Fk| | | |].
  unfold ebody in *. rewrite <- ?app_assoc in *. rewrite <- ?app_comm_cons in *. rewrite nodes_ws by apply lead_white.
  rewrite <- ?app_assoc in *. rewrite app_length in L. cbn [List.length] in L.
  assert (Hd : forall tail, flat_map print_attr a ++ tail = [] \/ exists x y, ~ in_name x /\ flat_map print_attr a ++ 62 :: tail = x :: y).
  { intros tail. right. destruct a as [|[n' v'] a']; [exists 62, tail; split; [unfold in_name, letter; lia|reflexivity]|].
    cbn [flat_map]. rewrite print_attr_eq. cbn [app]. eexists 32, _. split; [unfold in_name, letter; lia|reflexivity]. }
  assert (Hd' : forall tail, exists x y, ~ in_name x /\ flat_map print_attr a ++ 47 :: tail = x :: y).
  { intros tail. destruct a as [|[n' v'] a']; [exists 47, tail; split; [unfold in_name, letter; lia|reflexivity]|].
    cbn [flat_map]. rewrite print_attr_eq. cbn [app]. eexists 32, _. split; [unfold in_name, letter; lia|reflexivity]. }
  destruct kids as [|k r].
  - cbn [app]. destruct (Hd' (62 :: rest)) as (x&y&X&E). rewrite E. rewrite nodes_tag by assumption. rewrite <- E.
    rewrite (parse_attrs_ok a _ [] _ (fun acc => AOk acc true rest)); [|exact Fa|exact ND|lia|intros; apply attrs_closed; assumption].
    cbn [app after_tag height]. change (N.of_nat 0) with 0. rewrite N.add_0_r, (proj2 (N.ltb_lt d 100) D).
    rewrite norm_elem. reflexivity.
  - pose proof (reads_kids (k :: r) IH (inner st) f (d + 1) [] [] n) as RK.
    destruct (print_all (inner st) (k :: r)) as [o st2]. cbn [fst snd] in RK.
    set (w := match tdepth st2 with O => 10 :: spaces (depth st) | S _ => [] end) in *.
    specialize (RK w rest eq_refl eq_refl Fk). cbn [escape flat_map app] in RK.
    rewrite <- ?app_assoc in *. cbn [app] in *. rewrite <- ?app_assoc in *. cbn [app] in *.
    rewrite <- ?app_assoc in *. cbn [app] in *.
    destruct (Hd (o ++ w ++ 60 :: 47 :: n ++ 62 :: rest)) as [E|(x&y&X&E)].
    { exfalso. apply app_eq_nil in E. destruct E as [_ E]. apply app_eq_nil in E. destruct E as [_ E].
      apply app_eq_nil in E. destruct E as [_ E]. discriminate E. }
    rewrite E. rewrite nodes_tag by assumption. rewrite <- E.
    rewrite (parse_attrs_ok a _ [] _ (fun acc => AOk acc false (o ++ w ++ 60 :: 47 :: n ++ 62 :: rest)));
      [|exact Fa|exact ND|lia|intros; apply attrs_end; assumption].
    cbn [app after_tag]. rewrite height_elem.
    destruct (o ++ w ++ 60 :: 47 :: n ++ 62 :: rest) as [|x0 y0] eqn:E0.
    { exfalso. apply app_eq_nil in E0. destruct E0 as [_ E0].
      apply app_eq_nil in E0. destruct E0 as [_ E0]. discriminate E0. }
    unfold max_depth. destruct (d + 1 =? 100) eqn:E1.
    { apply N.eqb_eq in E1. replace (d + N.of_nat (S (heights (k :: r))) <? 100) with false; [reflexivity|].
      symmetry. apply N.ltb_ge. lia. }
    apply N.eqb_neq in E1. rewrite RK.
    + replace (d + 1 + N.of_nat (heights (k :: r)) <? 100) with (d + N.of_nat (S (heights (k :: r))) <? 100).
      2:{ f_equal. lia. }
      destruct (d + N.of_nat (S (heights (k :: r))) <? 100); [|reflexivity].
      rewrite eqb_bytes_refl, norm_elem. reflexivity.
    + lia.
    + discriminate.
    + intros Y. exfalso. apply Y. constructor.
    + intros [].
    + exact Nm.
    + unfold w. destruct (tdepth st2); [|constructor]. constructor; [right; lia|apply spaces_white].
    + intros Y. unfold w. destruct (tdepth st2); [congruence|reflexivity].
    + rewrite !app_length in L. cbn [List.length] in *. lia.
Qed.

(** ** The relations of [XmlSpec] *)
Lemma nested_height k : forall h, nested k h -> h = height k.
Proof.
  induction k as [n a kids IH|v|v|v|v|v] using node_rect'; intros h H; inversion H as [| ? ? ? d NE HL| | | | |]; subst; try reflexivity.
  destruct kids as [|k r]; [congruence|]. rewrite height_elem. f_equal. clear NE H. revert d HL.
  assert (X : forall l d, Forall (fun k => forall h, nested k h -> h = height k) l -> nested_list l d -> d = heights l).
  { induction l as [|x l IHl]; intros d F H; inversion H; subst; [reflexivity|]. inversion_clear F as [|? ? A F']. cbn [heights].
    f_equal; [apply A; assumption|apply IHl; assumption]. }
  intros d HL. apply X; assumption.
Qed.
Lemma height_nested k : nested k (height k).
Proof.
  induction k as [n a kids IH|v|v|v|v|v] using node_rect'; try constructor.
  destruct kids as [|k r]; [constructor|]. rewrite height_elem. apply nd_elem; [discriminate|].
  induction IH as [|x l A _ IHl]; cbn [heights]; constructor; assumption.
Qed.
Lemma norm_reads k : tree k -> (forall v, k <> Text v) -> reads k (norm k).
Proof.
  induction k as [n a kids IH|v|v|v|v|v] using node_rect'; intros Tr NT.
  2: exfalso; exact (NT v eq_refl).
  2,3,5: cbn [norm]; constructor; apply nl_spec.
  2: inversion Tr.
  rewrite norm_elem. inversion_clear Tr as [? ? ? Nm ND Fa Fk| | | |]. constructor.
  - clear. induction a as [|[x y] a IHa]; constructor; [|exact IHa]. cbn [nl_attr fst snd]. split; [reflexivity|apply nl_spec].
  - clear NT ND Fa. generalize (@nil N) as p. induction kids as [|k r IHr]; intros p.
    + cbn [norms]. constructor. apply flush_spec.
    + inversion_clear IH as [|? ? A IH']. inversion_clear Fk as [|? ? Tk Fk'].
      assert (CT : (exists v, k = Text v) \/ forall v, k <> Text v).
      { destruct k; try (right; intros ? X; discriminate X). left. eexists. reflexivity. }
      destruct CT as [[v ->]|NT].
      * cbn [norms]. apply rl_text. apply IHr; assumption.
      * rewrite norms_node by exact NT. apply rl_node; [exact NT|apply flush_spec|apply A; assumption|apply IHr; assumption].
Qed.
Lemma plain_reads k : plain k -> tree k -> (forall v, k <> Text v) -> norm k = k.
Proof.
  induction k as [n a kids IH|v|v|v|v|v] using node_rect'; intros Pl Tr NT;
    try (inversion_clear Pl; cbn [norm]; rewrite nl_no_cr by assumption; reflexivity).
  rewrite norm_elem. inversion_clear Pl as [? ? ? Pa Pk Ap| | | |]. inversion_clear Tr as [? ? ? Nm ND Fa Fk| | | |]. f_equal.
  - clear - Pa. induction Pa as [|[x y] a A _ IHa]; [reflexivity|]. cbn [map]. rewrite IHa. unfold nl_attr. cbn [fst snd] in *.
    rewrite nl_no_cr by exact A. reflexivity.
  - clear NT ND Fa Pa a n Nm.
    assert (X : forall r, Forall plain r -> Forall tree r -> apart r ->
      Forall (fun k => plain k -> tree k -> (forall v, k <> Text v) -> norm k = k) r ->
      norms [] r = r /\ (forall v, no_cr v -> ~ Forall white v -> (forall k r', r = k :: r' -> ~ is_text k) -> norms v r = Text v :: r)).
    { induction r as [|k r IHr]; intros P1 T1 A1 F1.
      - split; [reflexivity|]. intros v C W _. cbn [norms]. rewrite flush_text by exact W. rewrite nl_no_cr by exact C. reflexivity.
      - inversion_clear P1 as [|? ? P2 P3]. inversion_clear T1 as [|? ? T2 T3]. inversion_clear F1 as [|? ? F2 F3].
        assert (A3 : apart r) by (destruct r; [exact I|apply A1]).
        specialize (IHr P3 T3 A3 F3). destruct IHr as [I1 I2].
        assert (CT : (exists v, k = Text v) \/ forall v, k <> Text v).
        { destruct k; try (right; intros ? X; discriminate X). left. eexists. reflexivity. }
        destruct CT as [[v ->]|NT].
        + split.
          * cbn [norms app]. apply I2; [inversion P2; assumption|inversion P2; assumption|].
            intros k r' ->. apply A1. exists v. reflexivity.
          * intros v0 _ _ H. exfalso. apply (H _ _ eq_refl). exists v. reflexivity.
        + split; intros; rewrite norms_node by exact NT; rewrite F2, I1 by assumption.
          * reflexivity.
          * rewrite flush_text by assumption. rewrite nl_no_cr by assumption. reflexivity. }
    apply X; assumption.
Qed.

(** ** The whole document *)
Lemma print_no_nul k : tree k -> forall st, ~ In 0 (fst (print st k)).
Proof.
  assert (Sp : forall w, Forall white w -> ~ In 0 w).
  { intros w W X. rewrite Forall_forall in W. specialize (W 0 X). unfold white in W. lia. }
  assert (Pr : forall st, ~ In 0 (fst (prepare st))).
  { intros st. cbn [prepare fst]. rewrite in_app_iff. intros [X|X].
    - unfold seal in X. destruct (just st); vm_compute in X; intuition congruence.
    - revert X. apply Sp. apply (lead_white st). }
  induction k as [n a kids IH|v|v|v|v|v] using node_rect'; intros Tr st.
  2:{ inversion_clear Tr. cbn [print fst]. rewrite in_app_iff. intros [X|X]; [|exact (escape_no_nul true v H X)].
      unfold seal in X. destruct (just st); vm_compute in X; intuition congruence. }
  2:{ inversion_clear Tr. cbn [print fst]. rewrite !in_app_iff. intros [X|[X|[X|X]]]; try contradiction; try (vm_compute in X; intuition congruence).
      unfold seal in X. destruct (just st); vm_compute in X; intuition congruence. }
  2:{ inversion_clear Tr. cbn [print]. specialize (Pr st). destruct (prepare st) as [o st1]. cbn [fst] in *.
      rewrite !in_app_iff. intros [X|[X|[X|X]]]; try contradiction; vm_compute in X; intuition congruence. }
  2:{ inversion Tr. }
  2:{ inversion_clear Tr. cbn [print]. specialize (Pr st). destruct (prepare st) as [o st1]. cbn [fst] in *.
      rewrite !in_app_iff. intros [X|[X|[X|X]]]; try contradiction; vm_compute in X; intuition congruence. }
  inversion_clear Tr as [? ? ? Nm ND Fa Fk| | | |]. rewrite print_elem. unfold open_element.
  specialize (Pr st). destruct (prepare st) as [o st1]. cbn [fst] in *.
  assert (K : forall l st0, Forall (fun k => tree k -> forall st, ~ In 0 (fst (print st k))) l -> Forall tree l -> ~ In 0 (fst (print_all st0 l))).
  { induction l as [|k r IHl]; intros st0 F G; [intros []|]. inversion_clear F as [|? ? A F']. inversion_clear G as [|? ? B G'].
    cbn [print_all]. specialize (A B st0). destruct (print st0 k) as [x st2]. specialize (IHl st2 F' G').
    destruct (print_all st2 r) as [y st3]. cbn [fst] in *. rewrite in_app_iff. tauto. }
  specialize (K kids (mkSt true (first st1) (S (depth st1)) (tdepth st1)) IH Fk). destruct (print_all _ kids) as [o2 st2]. cbn [fst] in *.
  assert (NN := name_no_nul n Nm).
  unfold close_element. cbn [fst]. rewrite !in_app_iff. intros X.
  assert (At : ~ In 0 (flat_map print_attr a)).
  { clear - Fa. intros X. apply in_flat_map in X. destruct X as ([n v]&A&B). rewrite Forall_forall in Fa. destruct (Fa _ A) as [F1 F2].
    cbn [fst snd] in *. rewrite print_attr_eq in B. cbn [In app] in B. rewrite in_app_iff in B.
    destruct B as [B|[B|[B|[B|B]]]]; try discriminate B.
    - exact (name_no_nul n F1 B).
    - apply in_app_iff in B. destruct B as [B|[B|[]]]; [exact (escape_no_nul false v F2 B)|discriminate B]. }
  assert (Sq : forall d, ~ In 0 (10 :: spaces d)).
  { intros d. apply Sp. constructor; [right; lia|apply spaces_white]. }
  destruct X as [[X|[X|[X|X]]]|[X|[X|X]]]; try contradiction.
  - vm_compute in X. intuition congruence.
  - destruct (just st2); [vm_compute in X; intuition congruence|].
    rewrite !in_app_iff in X. destruct X as [X|[X|[X|X]]]; try contradiction; try (vm_compute in X; intuition congruence).
    destruct (tdepth st2); [exact (Sq _ X)|destruct X].
  - destruct (pred (depth st2)); [vm_compute in X; intuition congruence|destruct X].
Qed.
Definition after_decl : pst := mkSt false false 0 0.
Lemma write_root n a kids :
  write_buffer [Elem n a kids] = 60 :: 63 :: declaration ++ 63 :: 62 :: ebody after_decl n a kids.
Proof.
  unfold write_buffer. cbn [print_all]. change (print start_st (Decl declaration)) with (60 :: 63 :: declaration ++ [63; 62], after_decl). cbv beta iota.
  pose proof (print_elem_body after_decl n a kids eq_refl) as E. destruct (print after_decl (Elem n a kids)) as [o st]. cbn [fst] in *.
  rewrite app_nil_r, E. cbn [depth after_decl].
  match goal with |- removelast ?x = ?y => assert (X : x = y ++ [10]) end.
  { cbn [app]. rewrite <- !app_assoc. reflexivity. }
  rewrite X. apply removelast_last.
Qed.
Lemma nodes_decl f v rest : ~ In 0 v -> ~ within (T"?>") v ->
  nodes (S f) 1 true [] (60 :: 63 :: v ++ 63 :: 62 :: rest) = nodes f 1 true [Decl (nl v)] rest.
Proof.
  intros Z W.
  change (nodes (S f) 1 true [] (60 :: 63 :: v ++ 63 :: 62 :: rest)) with
    (match read_special ([63] ++ [62]) (v ++ ([63] ++ [62]) ++ rest) Decl EDecl with
     | inl (n, rest) => if decl_allowed true [] then nodes f 1 true ([] ++ [n]) rest else NErr EDecl | inr e => NErr e end).
  unfold read_special. rewrite parse_text_stop; [|cbn; lia|exact W]. rewrite get_str_raw by exact Z. reflexivity.
Qed.
Lemma within_check sub s : (forall i, (i <= List.length s)%nat -> is_prefix sub (skipn i s) = false) -> ~ within sub s.
Proof.
  intros H (a&b&E). specialize (H (List.length a)). rewrite E in H. rewrite app_length in H. specialize (H ltac:(lia)).
  rewrite skipn_app, skipn_all, Nat.sub_diag in H. cbn [app skipn] in H.
  apply is_prefix_false in H. apply H. exists b. reflexivity.
Qed.
Lemma declaration_ok : ~ In 0 declaration /\ ~ within (T"?>") declaration /\ nl declaration = declaration.
Proof.
  split; [|split].
  - vm_compute. intuition congruence.
  - apply within_check. intros i _. do 40 (destruct i as [|i]; [vm_compute; reflexivity|]). reflexivity.
  - vm_compute. reflexivity.
Qed.
Lemma parse_root n a kids : tree (Elem n a kids) ->
  parse (write_buffer [Elem n a kids]) =
  (if 1 + N.of_nat (height (Elem n a kids)) <? 100 then DOk [Decl declaration; norm (Elem n a kids)] else DErr EDepth).
Proof.
  intros Tr. rewrite write_root.
  assert (Z : ~ In 0 (60 :: 63 :: declaration ++ 63 :: 62 :: ebody after_decl n a kids)).
  { pose proof (print_no_nul _ Tr after_decl) as P. rewrite print_elem_body in P by reflexivity.
    rewrite in_app_iff in P. cbn [In]. rewrite in_app_iff. cbn [In]. destruct declaration_ok as (D&_).
    intros [X|[X|[X|[X|[X|X]]]]]; try discriminate X; tauto. }
  destruct declaration_ok as (D1&D2&D3).
  set (E := ebody after_decl n a kids) in *. generalize declaration, D1, D2, D3, Z. clear D1 D2 D3 Z. intros dv D1 D2 D3 Z.
  unfold parse. rewrite upto_nul_id by exact Z. cbv beta iota.
  rewrite skip_ws_stop by (unfold white; lia).
  change (skip_bom (60 :: 63 :: dv ++ 63 :: 62 :: E)) with (60 :: 63 :: dv ++ 63 :: 62 :: E).
  cbv beta iota. rewrite nodes_decl by assumption. rewrite D3.
  rewrite <- (app_nil_r E).
  cbn [List.length]. rewrite !app_length. cbn [List.length].
  replace (S (List.length dv + S (S (List.length E + 0))))%nat with (S (List.length dv + S (List.length E + 1)))%nat by lia.
  change E with (body after_decl (Elem n a kids)) at 2.
  rewrite (reads_all (Elem n a kids)); try assumption; try reflexivity; try discriminate.
  - destruct (1 + N.of_nat (height (Elem n a kids)) <? 100); [|reflexivity].
    cbn [app]. rewrite Nat.add_succ_r. reflexivity.
  - cbn [body]. fold E. rewrite app_length. cbn [List.length]. lia.
Qed.

(** ** Every text is read *)
Lemma parse_text_len stop : forall s v r, parse_text stop s = Some (v, r) -> (List.length v + List.length r <= List.length s)%nat.
Proof.
  induction s as [|c s IH]; intros v r H; [discriminate H|]. cbn [parse_text] in H.
  destruct (is_prefix stop (c :: s)).
  - injection H as <- <-. rewrite skipn_length. cbn [List.length]. lia.
  - destruct (parse_text stop s) as [[a b]|]; [|discriminate H]. injection H as <- <-. specialize (IH _ _ eq_refl). cbn [List.length]. lia.
Qed.
Lemma parse_text_eq stop : forall s v r, parse_text stop s = Some (v, r) -> s = v ++ stop ++ r.
Proof.
  induction s as [|c s IH]; intros v r H; [discriminate H|]. cbn [parse_text] in H.
  destruct (is_prefix stop (c :: s)) eqn:E.
  - injection H as <- <-. apply is_prefix_iff in E. destruct E as (t&->). rewrite skipn_app, skipn_all, Nat.sub_diag. reflexivity.
  - destruct (parse_text stop s) as [[a b]|]; [|discriminate H]. injection H as <- <-. rewrite (IH _ _ eq_refl). reflexivity.
Qed.
Lemma span_len P : forall s a b, span P s = (a, b) -> (List.length b <= List.length s)%nat.
Proof.
  induction s as [|c s IH]; intros a b H; cbn [span] in H; [injection H as <- <-; lia|].
  destruct (P c); [|injection H as <- <-; lia]. destruct (span P s) as [x y]. injection H as <- <-.
  specialize (IH _ _ eq_refl). cbn [List.length]. lia.
Qed.
Lemma span_sat P : forall s a b, span P s = (a, b) -> Forall (fun c => P c = true) a.
Proof.
  induction s as [|c s IH]; intros a b H; cbn [span] in H; [injection H as <- <-; constructor|].
  destruct (P c) eqn:E; [|injection H as <- <-; constructor]. destruct (span P s) as [x y]. injection H as <- <-.
  constructor; [exact E|]. exact (IH _ _ eq_refl).
Qed.
Lemma parse_name_inv s n r : parse_name s = Some (n, r) -> xml_name n /\ (List.length r < List.length s)%nat.
Proof.
  destruct s as [|c s]; [discriminate|]. cbn [parse_name]. destruct (name_start c) eqn:E; [|discriminate].
  destruct (span name_char s) as [a b] eqn:F. intros H. injection H as <- <-. split.
  - exists c, a. split; [reflexivity|]. split; [apply name_start_iff, E|].
    apply span_sat in F. revert F. apply Forall_impl. intros x. apply name_char_iff.
  - apply span_len in F. cbn [List.length]. lia.
Qed.
Lemma parse_attr_inv s n v r : parse_attr s = Some (n, v, r) ->
  xml_name n /\ ~ In 0 v /\ (List.length r < List.length s)%nat.
Proof.
  unfold parse_attr. destruct (parse_name s) as [[n' r0]|] eqn:E; [|discriminate].
  apply parse_name_inv in E. destruct E as [E1 E2]. intros H.
  assert (H' : match skip_ws r0 with
    | 61 :: r1 => match skip_ws r1 with
      | q :: r2 => if (q =? 34) || (q =? 39) then match parse_text [q] r2 with Some (v, rest) => Some (n', get_str true v, rest) | None => None end else None
      | [] => None end
    | _ => None end = Some (n, v, r)) by (destruct r0; [discriminate H|exact H]). clear H. revert H'.
  pose proof (skip_ws_len r0) as L0. destruct (skip_ws r0) as [|x r1]; [discriminate|].
  intros H. assert (x = 61).
  { destruct x as [|x]; [discriminate H|]. repeat (destruct x; try discriminate H); reflexivity. }
  subst x. cbv iota in H. pose proof (skip_ws_len r1) as L1. destruct (skip_ws r1) as [|q r2]; [discriminate H|].
  destruct ((q =? 34) || (q =? 39)); [|discriminate H]. destruct (parse_text [q] r2) as [[v' rest]|] eqn:F; [|discriminate H].
  injection H as <- <- <-. apply parse_text_len in F. cbn [List.length] in *. repeat split; try assumption; try lia.
  unfold get_str. destruct (get_loop _ _ _ _ _); [apply upto_nul_no_nul|intros []].
Qed.
Lemma parse_attrs_inv : forall fuel acc s, (List.length s < fuel)%nat ->
  NoDup (map fst acc) -> Forall (fun a => xml_name (fst a) /\ ~ In 0 (snd a)) acc ->
  match parse_attrs fuel acc s with
  | AOk attrs _ rest => (List.length rest < List.length s)%nat /\ NoDup (map fst attrs) /\ Forall (fun a => xml_name (fst a) /\ ~ In 0 (snd a)) attrs
  | AErr _ => True
  | ALoop => False
  end.
Proof.
  induction fuel as [|f IH]; intros acc s L ND F; [lia|]. cbn [parse_attrs].
  pose proof (skip_ws_len s) as L0. destruct (skip_ws s) as [|c r]; [exact I|]. cbn [List.length] in L0.
  destruct (name_start c).
  - destruct (parse_attr (c :: r)) as [[[n v] rest]|] eqn:E; [|exact I]. apply parse_attr_inv in E. destruct E as (E1&E2&E3).
    cbn [List.length] in E3. destruct (has_attr n acc) eqn:HA; [exact I|].
    specialize (IH (acc ++ [(n, v)]) rest ltac:(lia)).
    assert (ND' : NoDup (map fst (acc ++ [(n, v)]))).
    { rewrite map_app. cbn [map fst]. apply (Permutation_NoDup (l := n :: map fst acc)); [apply Permutation_cons_append|].
      constructor; [|exact ND]. intros X. apply has_attr_iff in X. congruence. }
    specialize (IH ND').
    assert (F' : Forall (fun a => xml_name (fst a) /\ ~ In 0 (snd a)) (acc ++ [(n, v)])).
    { apply Forall_app. split; [exact F|]. constructor; [cbn; tauto|constructor]. }
    specialize (IH F'). destruct (parse_attrs f (acc ++ [(n, v)]) rest) as [attrs b r'| |]; try assumption.
    destruct IH as (A&B&C). split; [lia|]. tauto.
  - destruct (c =? 62); [split; [lia|tauto]|].
    destruct ((c =? 47) && (hd 0 r =? 62)); [|exact I]. split; [|tauto]. destruct r; cbn [tl List.length] in *; lia.
Qed.

Lemma parse_text_not_within stop : stop <> [] -> forall s v r, parse_text stop s = Some (v, r) -> ~ within stop v.
Proof.
  intros NE. induction s as [|c s IH]; intros v r H; [discriminate H|]. pose proof (parse_text_eq _ _ _ _ H) as Q. cbn [parse_text] in H.
  destruct (is_prefix stop (c :: s)) eqn:E.
  - injection H as <- _. intros (a&b&X). destruct a; [|discriminate X]. destruct stop; [congruence|discriminate X].
  - destruct (parse_text stop s) as [[a0 b0]|]; [|discriminate H]. injection H as <- <-. specialize (IH _ _ eq_refl).
    intros (a&b&X). destruct a as [|y a].
    + apply is_prefix_false in E. apply E. exists (b ++ stop ++ b0). rewrite Q, X. cbn [app]. rewrite <- app_assoc. reflexivity.
    + apply IH. injection X as -> ->. exists a, b. reflexivity.
Qed.
(** Line ends do not make a stop appear. *)
Lemma newlines_prefix sub : ~ In 10 sub -> ~ In 13 sub -> forall s b, newlines s (sub ++ b) -> exists b', s = sub ++ b' /\ newlines b' b.
Proof.
  induction sub as [|x sub IH]; intros A B s b H; [exists s; split; [reflexivity|exact H]|].
  assert (X10 : x <> 10) by (intros ->; apply A; left; reflexivity).
  inversion H; subst; try congruence.
  destruct (IH ltac:(intros Y; apply A; right; exact Y) ltac:(intros Y; apply B; right; exact Y) _ _ H5) as (b'&->&N).
  exists b'. split; [reflexivity|exact N].
Qed.
Lemma newlines_within sub : ~ In 10 sub -> ~ In 13 sub -> forall s t, newlines s t -> within sub t -> within sub s.
Proof.
  intros A B s t H (a&b&E). revert s t H E. induction a as [|x a IH]; intros s t H E.
  - subst t. destruct (newlines_prefix sub A B s b H) as (b'&->&_). exists [], b'. reflexivity.
  - subst t. inversion H; subst.
    + destruct (IH _ _ H2 eq_refl) as (a'&b'&->). exists (13 :: 10 :: a'), b'. reflexivity.
    + destruct (IH _ _ H4 eq_refl) as (a'&b'&->). exists (13 :: a'), b'. reflexivity.
    + destruct (IH _ _ H2 eq_refl) as (a'&b'&->). exists (10 :: 13 :: a'), b'. reflexivity.
    + destruct (IH _ _ H4 eq_refl) as (a'&b'&->). exists (10 :: a'), b'. reflexivity.
    + destruct (IH _ _ H5 eq_refl) as (a'&b'&->). exists (x :: a'), b'. reflexivity.
Qed.
Lemma upto_nul_prefix x : exists y, x = upto_nul x ++ y.
Proof.
  induction x as [|c x (y&IH)]; [exists []; reflexivity|]. cbn [upto_nul]. destruct (c =? 0).
  - exists (c :: x). reflexivity.
  - exists y. cbn [app]. congruence.
Qed.
Lemma get_str_cut v : exists y, nl v = get_str false v ++ y.
Proof.
  unfold get_str. rewrite (get_loop_raw (List.length v)) by lia. cbn [rev app]. apply upto_nul_prefix.
Qed.
Lemma get_str_no_nul b v : ~ In 0 (get_str b v).
Proof. unfold get_str. destruct (get_loop _ _ _ _ _); [apply upto_nul_no_nul|intros []]. Qed.
Lemma get_str_within sub v : ~ In 10 sub -> ~ In 13 sub -> ~ within sub v -> ~ within sub (get_str false v).
Proof.
  intros A B H (a&b&E). apply H. apply (newlines_within sub A B v (nl v) (nl_spec v)).
  destruct (get_str_cut v) as (y&->). rewrite E. exists a, (b ++ y). rewrite <- !app_assoc. reflexivity.
Qed.
Lemma get_str_starts sub v : ~ In 10 sub -> ~ In 13 sub -> (forall r, v <> sub ++ r) -> forall r, get_str false v <> sub ++ r.
Proof.
  intros A B H r E. destruct (get_str_cut v) as (y&C). rewrite E, <- app_assoc in C.
  pose proof (nl_spec v) as S1. rewrite C in S1. destruct (newlines_prefix sub A B v _ S1) as (b'&V&_). exact (H b' V).
Qed.
Lemma within_one c v : ~ within [c] v <-> ~ In c v.
Proof.
  split; intros H X; apply H.
  - apply in_split in X. destruct X as (a&b&->). exists a, b. reflexivity.
  - destruct X as (a&b&->). rewrite in_app_iff. right. left. reflexivity.
Qed.
Definition fine (d : N) (doc : bool) (k : node) : Prop :=
  (tree k \/ doc = true /\ exists v, k = Decl v) /\ d + N.of_nat (height k) < 100.
Lemma fine_heights d kids : 1 <= d -> Forall (fine d false) kids -> Forall tree kids /\ (d < 100 -> d + N.of_nat (heights kids) < 100).
Proof.
  intros D. induction 1 as [|k r (A&B) _ (C&E)]; [split; [constructor|cbn; lia]|]. cbn [heights]. split.
  - constructor; [destruct A as [A|[X _]]; [exact A|discriminate X]|exact C].
  - intros X. specialize (E X). lia.
Qed.
Lemma nodes_inv : forall f d doc kids s, (List.length s < f)%nat -> 1 <= d < 100 -> Forall (fine d doc) kids ->
  match nodes f d doc kids s with
  | NLoop => False
  | NErr _ => True
  | Stop k => Forall (fine d doc) k
  | EndTag k _ rest => Forall (fine d doc) k /\ (List.length rest < List.length s)%nat
  end.
Proof.
  induction f as [|f IH]; intros d doc kids s L D F; [lia|].
  assert (Go : forall k rest, fine d doc k -> (List.length rest < List.length s)%nat ->
    match nodes f d doc (kids ++ [k]) rest with
    | NLoop => False
    | NErr _ => True
    | Stop k => Forall (fine d doc) k
    | EndTag k _ rest => Forall (fine d doc) k /\ (List.length rest < List.length s)%nat
    end).
  { intros k rest K R. specialize (IH d doc (kids ++ [k]) rest ltac:(lia) D).
    assert (F' : Forall (fine d doc) (kids ++ [k])) by (apply Forall_app; split; [exact F|constructor; [exact K|constructor]]).
    specialize (IH F'). destruct (nodes f d doc (kids ++ [k]) rest) as [?|? ? ?|?|]; try exact IH. destruct IH. split; [assumption|lia]. }
  assert (Sp : forall stop n mk e, stop <> [] ->
    (forall v r, skipn n (skip_ws s) = v ++ stop ++ r -> ~ within stop v -> fine d doc (mk (get_str false v))) ->
    match (match read_special stop (skipn n (skip_ws s)) mk e with inl (n, rest) => nodes f d doc (kids ++ [n]) rest | inr e => NErr e end) with
    | NLoop => False
    | NErr _ => True
    | Stop k => Forall (fine d doc) k
    | EndTag k _ rest => Forall (fine d doc) k /\ (List.length rest < List.length s)%nat
    end).
  { intros stop n mk e NE H. unfold read_special. destruct (parse_text stop (skipn n (skip_ws s))) as [[v r]|] eqn:E; [|exact I].
    pose proof (parse_text_eq _ _ _ _ E) as Q. pose proof (parse_text_not_within stop NE _ _ _ E) as W.
    apply Go; [apply (H v r Q W)|]. assert (X : (List.length (skipn n (skip_ws s)) <= List.length s)%nat) by (rewrite skipn_length; pose proof (skip_ws_len s); lia).
    rewrite Q, !app_length in X. destruct stop; [congruence|cbn [List.length] in X; lia]. }
  cbn [nodes].
  destruct (skip_ws s) as [|c r] eqn:Es; [exact F|]. cbv zeta.
  pose proof (skip_ws_len s) as L0. rewrite Es in L0. cbn [List.length] in L0.
  destruct (is_prefix (T"<?") (c :: r)).
  { specialize (Sp (T"?>") 2%nat Decl EDecl). unfold read_special in *. 
    destruct (parse_text (T"?>") (skipn 2 (c :: r))) as [[v r']|]; [|exact I].
    destruct (decl_allowed doc kids) eqn:DA; [|exact I]. apply Sp; [discriminate|]. intros v' r'' _ _.
    split; [|cbn [height]; lia]. right. unfold decl_allowed in DA. apply andb_true_iff in DA. split; [tauto|eexists; reflexivity]. }
  destruct (is_prefix (T"<!--") (c :: r)) eqn:P1.
  { apply Sp; [discriminate|]. intros v' r'' _ W. split; [|cbn [height]; lia]. left. constructor; [apply get_str_no_nul|].
    apply get_str_within; [vm_compute; intuition congruence..|exact W]. }
  destruct (is_prefix (T"<![CDATA[") (c :: r)) eqn:P2.
  { apply Sp; [discriminate|]. intros v' r'' _ W. split; [|cbn [height]; lia]. left. constructor; [apply get_str_no_nul|].
    apply get_str_within; [vm_compute; intuition congruence..|exact W]. }
  destruct (is_prefix (T"<!") (c :: r)) eqn:P3.
  { apply is_prefix_iff in P3. destruct P3 as (t&P3). apply is_prefix_false in P1. apply is_prefix_false in P2.
    apply Sp; [discriminate|]. intros v' r'' Q0 W. rewrite P3 in P1, P2, Q0. assert (Q : t = v' ++ T">" ++ r'') by exact Q0.
    split; [|cbn [height]; lia]. left. constructor; [apply get_str_no_nul| | |].
    - apply within_one. apply get_str_within; [vm_compute; intuition congruence..|exact W].
    - apply get_str_starts; [vm_compute; intuition congruence..|]. intros r0 X. apply P1. subst v'. rewrite Q, <- app_assoc. eexists. reflexivity.
    - apply get_str_starts; [vm_compute; intuition congruence..|]. intros r0 X. apply P2. subst v'. rewrite Q, <- app_assoc. eexists. reflexivity. }
  clear Sp.
  destruct (c =? 60) eqn:E60.
  - pose proof (skip_ws_len r) as L1. set (s2 := skip_ws r) in *.
    assert (L2 : (List.length (if (hd 0 s2 =? 47)%N then tl s2 else s2) <= List.length r)%nat).
    { destruct (hd 0 s2 =? 47); [destruct s2; cbn [tl List.length] in *; lia|lia]. }
    destruct (parse_name (if hd 0 s2 =? 47 then tl s2 else s2)) as [[n s3]|] eqn:PN; [|exact I].
    apply parse_name_inv in PN. destruct PN as [Nm L3].
    pose proof (parse_attrs_inv (S (List.length s3)) [] s3 ltac:(lia) (NoDup_nil _) (Forall_nil _)) as PA.
    destruct (parse_attrs (S (List.length s3)) [] s3) as [attrs [|] rest|e|]; try exact I; [| |destruct PA]; destruct PA as (A1&A2&A3).
    + apply Go; [|lia]. split; [|cbn [height]; lia]. left. constructor; try assumption. constructor.
    + destruct (hd 0 s2 =? 47); [split; [exact F|lia]|]. destruct rest as [|x rest0]; [exact I|]. set (rest := x :: rest0) in *.
      unfold max_depth. destruct (d + 1 =? 100) eqn:E1; [exact I|]. apply N.eqb_neq in E1.
      pose proof (IH (d + 1) false [] rest ltac:(lia) ltac:(lia) (Forall_nil _)) as I1.
      destruct (nodes f (d + 1) false [] rest) as [ki|ki n' rest'|e|]; try exact I; [|destruct I1]. destruct I1 as [I1 I2].
      destruct (eqb_bytes n' n); [|exact I]. apply Go; [|lia].
      apply fine_heights in I1; [|lia]. destruct I1 as [J1 J2]. specialize (J2 ltac:(lia)).
      split; [left; constructor; assumption|]. destruct ki as [|k0 k1]; [cbn [height]; lia|]. rewrite height_elem. lia.
  - destruct (parse_text (T"<") s) as [[v r']|] eqn:PT; [|exact I]. destruct r' as [|x r']; [exact I|].
    pose proof (parse_text_eq _ _ _ _ PT) as Q.
    apply Go.
    + split; [|cbn [height]; lia]. left. constructor. apply get_str_no_nul.
    + rewrite Q at 1. rewrite !app_length. change (List.length (T"<")) with 1%nat. cbn [List.length].
      destruct v as [|y v]; [|cbn [List.length]; lia]. exfalso. rewrite Q in Es. cbn [app] in Es.
      change (T"<" ++ x :: r') with (60 :: x :: r') in Es. rewrite skip_ws_stop in Es by (unfold white; lia).
      injection Es as <- _. discriminate E60.
Qed.

(** ** What is read is plain *)
Lemma flush_cases p : flush p = [] \/ exists v, flush p = [Text v] /\ no_cr v /\ ~ Forall white v.
Proof.
  destruct (white_dec p) as [W|W]; [left; apply flush_white, W|right].
  exists (nl p). rewrite flush_text by exact W. split; [reflexivity|]. split; [apply (newlines_no_cr p); apply nl_spec|].
  intros X. apply W. apply (newlines_white p (nl p) (nl_spec p)). exact X.
Qed.
Lemma norm_text_free k : (forall v, k <> Text v) -> ~ is_text (norm k).
Proof. destruct k; intros H (v&E); try discriminate E. exact (H _ eq_refl). Qed.
Lemma norm_plain k : tree k -> (forall v, k <> Text v) -> plain (norm k).
Proof.
  induction k as [n a kids IH|v|v|v|v|v] using node_rect'; intros Tr NT.
  2: exfalso; exact (NT v eq_refl).
  2,3,5: cbn [norm]; constructor; apply (newlines_no_cr v); apply nl_spec.
  2: inversion Tr.
  rewrite norm_elem. inversion_clear Tr as [? ? ? Nm ND Fa Fk| | | |].
  assert (X : forall l p, Forall (fun k => tree k -> (forall v, k <> Text v) -> plain (norm k)) l -> Forall tree l ->
    Forall plain (norms p l) /\ apart (norms p l)).
  { induction l as [|k r IHr]; intros p F G.
    - cbn [norms]. destruct (flush_cases p) as [->|(v&->&A&B)]; [split; [constructor|exact I]|].
      split; [constructor; [constructor; assumption|constructor]|exact I].
    - inversion_clear F as [|? ? A F']. inversion_clear G as [|? ? B G'].
      assert (CT : (exists v, k = Text v) \/ forall v, k <> Text v).
      { destruct k; try (right; intros ? Y; discriminate Y). left. eexists. reflexivity. }
      destruct CT as [[v ->]|NT'].
      + cbn [norms]. apply IHr; assumption.
      + rewrite norms_node by exact NT'. specialize (IHr [] F' G'). destruct IHr as [P1 P2].
        assert (Nk := norm_text_free k NT'). specialize (A B NT').
        assert (P3 : apart (norm k :: norms [] r)).
        { cbn [apart]. destruct (norms [] r); [exact I|]. split; [intros Y; contradiction|exact P2]. }
        destruct (flush_cases p) as [->|(v&->&C&D)]; cbn [app].
        * split; [constructor; assumption|exact P3].
        * split; [constructor; [constructor; assumption|constructor; assumption]|].
          change (apart (Text v :: norm k :: norms [] r)) with ((is_text (Text v) -> ~ is_text (norm k)) /\ apart (norm k :: norms [] r)).
          split; [intros _; exact Nk|exact P3]. }
  destruct (X kids [] IH Fk) as [P1 P2]. constructor; [|exact P1|exact P2].
  clear. induction a as [|[x y] a IHa]; constructor; [|exact IHa]. cbn [nl_attr snd]. apply (newlines_no_cr y). apply nl_spec.
Qed.
Lemma same_text_flush p t : same_text p t -> t = flush p.
Proof.
  intros H. destruct H as [p W|p v W V]; [symmetry; apply flush_white, W|]. rewrite flush_text by exact W.
  rewrite (newlines_eq _ _ V). reflexivity.
Qed.
Lemma reads_norm k k' : reads k k' -> k' = norm k.
Proof.
  revert k'. induction k as [n a kids IH|v|v|v|v|v] using node_rect'; intros k' R;
    try (inversion R; subst; cbn [norm]; f_equal; apply newlines_eq; assumption).
  rewrite norm_elem. inversion R as [n0 a0 attrs' kids0 kids' FA RL| | |]; subst. f_equal.
  - clear - FA. induction FA as [|[x y] [x' y'] l l' (A&B) _ IHl]; [reflexivity|]. cbn [map fst snd] in *. rewrite IHl.
    unfold nl_attr. cbn [fst snd]. rewrite <- A. rewrite (newlines_eq _ _ B). reflexivity.
  - clear R FA. revert kids' RL. generalize (@nil N) as p.
    induction kids as [|k r IHr]; intros p kids' R.
    + inversion R as [p0 t St| |]; subst. cbn [norms]. apply same_text_flush, St.
    + inversion_clear IH as [|? ? A IH']. inversion R as [|p0 v r0 r' R'|p0 t k0 k' r0 r' NT St Rk Rr]; subst.
      * cbn [norms]. apply IHr; assumption.
      * rewrite norms_node by assumption. rewrite (A _ Rk), (same_text_flush _ _ St). do 2 f_equal. apply IHr; assumption.
Qed.
