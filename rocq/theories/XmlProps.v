(** C77, C78, C79: XML documents are read as they were written; every text is read to an end;
    attributes, texts and children of nodes. *)
From Coq Require Import String List NArith ZArith Lia Bool Arith.
From Coq Require Import ZifyN ZifyNat ZifyBool.
From Verif Require Import Bytes Txt UtfModel UtfSpec UtfProofs StringModel StringProofs XmlModel XmlSpec XmlProofs XmlRef.
Import ListNotations.
Open Scope N_scope.

(** ** C77 *)
(** A tree that has an XML text is read as written, up to what [reads] allows, if its elements are
    nested at most 98 deep; otherwise the text is rejected. *)
Theorem C77_document n attrs kids h : tree (Elem n attrs kids) -> nested (Elem n attrs kids) h ->
  ((h <= 98)%nat -> exists t, reads (Elem n attrs kids) t /\
     parse (write_buffer [Elem n attrs kids]) = DOk [Decl declaration; t]) /\
  ((98 < h)%nat -> parse (write_buffer [Elem n attrs kids]) = DErr EDepth).
Proof.
  intros Tr Hn. apply nested_height in Hn. subst h. rewrite (parse_root n attrs kids Tr). split; intros H.
  - exists (norm (Elem n attrs kids)). split; [apply norm_reads; [exact Tr|discriminate]|].
    rewrite (proj2 (N.ltb_lt _ _)) by lia. reflexivity.
  - rewrite (proj2 (N.ltb_ge _ _)) by lia. reflexivity.
Qed.
(** Without CR, white texts and neighbouring texts nothing changes. *)
Theorem C77_same n attrs kids h : tree (Elem n attrs kids) -> plain (Elem n attrs kids) ->
  nested (Elem n attrs kids) h -> (h <= 98)%nat ->
  parse (write_buffer [Elem n attrs kids]) = DOk [Decl declaration; Elem n attrs kids].
Proof.
  intros Tr Pl Hn L. apply nested_height in Hn. subst h. rewrite (parse_root n attrs kids Tr).
  rewrite (proj2 (N.ltb_lt _ _)) by lia. rewrite plain_reads; [reflexivity|exact Pl|exact Tr|discriminate].
Qed.
(** Whatever text was accepted: an element of the document is such a tree, so it can be written and read
    again; what this gives is not changed by writing and reading any more. *)
Lemma parse_fine xml l : parse xml = DOk l -> Forall (fine 1 true) l.
Proof.
  unfold parse. destruct (upto_nul xml) as [|c s]; [discriminate|]. destruct (skip_bom (skip_ws (c :: s))) as [|x y]; [discriminate|].
  pose proof (nodes_inv (S (List.length (x :: y))) 1 true [] (x :: y) ltac:(lia) ltac:(lia) (Forall_nil _)) as H.
  destruct (nodes (S (List.length (x :: y))) 1 true [] (x :: y)) as [k|k n r|e|]; intros E; try discriminate E; injection E as <-; tauto.
Qed.
Theorem C77_again xml l n attrs kids : parse xml = DOk l -> In (Elem n attrs kids) l ->
  tree (Elem n attrs kids) /\
  exists t, reads (Elem n attrs kids) t /\ parse (write_buffer [Elem n attrs kids]) = DOk [Decl declaration; t] /\
    parse (write_buffer [t]) = DOk [Decl declaration; t].
Proof.
  intros P I. pose proof (parse_fine _ _ P) as F. rewrite Forall_forall in F. destruct (F _ I) as [[Tr|(_&v&X)] L]; [|discriminate X].
  split; [exact Tr|].
  assert (R : parse (write_buffer [Elem n attrs kids]) = DOk [Decl declaration; norm (Elem n attrs kids)]).
  { rewrite parse_root by exact Tr. rewrite (proj2 (N.ltb_lt _ _)) by exact L. reflexivity. }
  exists (norm (Elem n attrs kids)). split; [apply norm_reads; [exact Tr|discriminate]|]. split; [exact R|].
  pose proof (parse_fine _ _ R) as F2. inversion_clear F2 as [|? ? _ F3]. inversion_clear F3 as [|? ? [T2 L2] _].
  assert (Pl : plain (norm (Elem n attrs kids))) by (apply norm_plain; [exact Tr|discriminate]).
  rewrite norm_elem in *. destruct T2 as [T2|(_&v&X)]; [|discriminate X].
  rewrite parse_root by exact T2. rewrite (proj2 (N.ltb_lt _ _)) by exact L2.
  rewrite plain_reads; [reflexivity|exact Pl|exact T2|discriminate].
Qed.
(** A tree with an element inside text, a value with every special character and a comment. *)
Definition sample : node :=
  Elem (T"GDTF") [(T"DataVersion", T"1.2"); (T"x", [60; 38; 34; 39; 62; 10])]
    [Elem (T"a") [] [Text (T"1 < 2 & "); Elem (T"b") [] []; Text (T" >"); Elem (T"c") [(T"d", [])] [Text (T"]]>")]];
     Comment (T" -- - "); Cdata (T"<x>&amp;]"); Unknown (T"DOCTYPE gdtf"); Elem (T"e") [] []].
Lemma within_no sub s : existsb (fun i => is_prefix sub (skipn i s)) (seq 0 (S (List.length s))) = false -> ~ within sub s.
Proof.
  intros H. apply within_check. intros i L. destruct (is_prefix sub (skipn i s)) eqn:E; [|reflexivity].
  rewrite <- H. symmetry. apply existsb_exists. exists i. split; [apply in_seq; lia|exact E].
Qed.
Lemma name_test n : (match n with c :: r => name_start c && forallb name_char r | [] => false end) = true -> xml_name n.
Proof.
  destruct n as [|c r]; [discriminate|]. intros H. apply andb_true_iff in H. destruct H as [A B].
  exists c, r. split; [reflexivity|]. split; [apply name_start_iff, A|]. apply Forall_forall. intros x X.
  apply name_char_iff. rewrite forallb_forall in B. exact (B x X).
Qed.
Lemma no_nul_test v : existsb (N.eqb 0) v = false -> ~ In 0 v.
Proof. intros H I. rewrite <- not_true_iff_false in H. apply H. apply existsb_exists. exists 0. split; [exact I|reflexivity]. Qed.
Lemma white_test v : forallb is_ws v = false -> ~ Forall white v.
Proof.
  intros H F. rewrite <- not_true_iff_false in H. apply H. apply forallb_forall. intros x X. apply is_ws_iff.
  rewrite Forall_forall in F. exact (F x X).
Qed.
Lemma starts_test sub v : is_prefix sub v = false -> forall r, v <> sub ++ r.
Proof. intros H r E. apply is_prefix_false in H. apply H. exists r. exact E. Qed.
Ltac tree_tac :=
  repeat first
    [ apply Forall_nil | apply Forall_cons
    | apply t_elem | apply t_text | apply t_cdata | apply t_comment | apply t_unknown
    | apply name_test; vm_compute; reflexivity
    | apply no_nul_test; vm_compute; reflexivity
    | apply within_no; vm_compute; reflexivity
    | apply starts_test; vm_compute; reflexivity
    | split ].
Example sample_tree : tree sample.
Proof.
  unfold sample. tree_tac.
  all: try (repeat constructor; vm_compute; intuition congruence).
Qed.
Example sample_plain : plain sample.
Proof.
  unfold sample. repeat first [apply Forall_nil|apply Forall_cons|apply p_elem|apply p_text|apply p_cdata|apply p_comment|apply p_unknown
    |apply white_test; vm_compute; reflexivity];
  try (vm_compute; intuition congruence).
  all: cbn [apart]; repeat split; intros (v&X); try discriminate X; intros (v'&X'); discriminate X'.
Qed.
Example sample_read : parse (write_buffer [sample]) = DOk [Decl declaration; sample].
Proof.
  apply (C77_same _ _ _ 3 sample_tree sample_plain); [|lia]. apply (height_nested sample).
Qed.
(** White texts and CR are lost, and nested 99 deep nothing is read. *)
Theorem C77_white_refuted : exists t, tree t /\ nested t 1 /\ parse (write_buffer [t]) <> DOk [Decl declaration; t] /\
  parse (write_buffer [t]) = DOk [Decl declaration; Elem (T"a") [] []].
Proof.
  exists (Elem (T"a") [] [Text (T" ")]). assert (E : parse (write_buffer [Elem (T"a") [] [Text (T" ")]]) = DOk [Decl declaration; Elem (T"a") [] []]) by (vm_compute; reflexivity).
  split; [tree_tac; constructor|]. split; [apply (height_nested (Elem (T"a") [] [Text (T" ")]))|]. split; [rewrite E; discriminate|exact E].
Qed.
Fixpoint deep (n : nat) : node := match n with O => Elem (T"a") [] [] | S m => Elem (T"a") [] [deep m] end.
Lemma deep_ok n : tree (deep n) /\ nested (deep n) n.
Proof.
  induction n as [|n [A B]]; cbn [deep].
  - split; [tree_tac; constructor|constructor].
  - split; [apply t_elem; [apply name_test; reflexivity|constructor|constructor|constructor; [exact A|constructor]]|].
    apply nd_elem; [discriminate|]. pose proof (nd_cons _ _ _ _ B nd_nil) as X. rewrite Nat.max_0_r in X. exact X.
Qed.
Theorem C77_deep_refuted : exists t, tree t /\ nested t 99 /\ parse (write_buffer [t]) = DErr EDepth.
Proof.
  exists (deep 99). destruct (deep_ok 99) as [A B]. split; [exact A|]. split; [exact B|].
  exact (proj2 (C77_document _ _ _ 99 A B) ltac:(lia)).
Qed.
(** A document that was read and is written again has one declaration more each time; a comment after
    the root loses its end, so the text cannot be read. *)
Theorem C77_declaration_refuted : exists t doc, parse (write_buffer [t]) = DOk doc /\
  parse (write_buffer doc) = DOk (Decl declaration :: doc) /\
  parse (write_buffer (Decl declaration :: doc)) = DOk (Decl declaration :: Decl declaration :: doc).
Proof. exists (Elem (T"a") [] []). eexists. split; [vm_compute; reflexivity|]. split; vm_compute; reflexivity. Qed.
Theorem C77_comment_refuted : exists root v, tree root /\ tree (Comment v) /\ parse (write_buffer [root; Comment v]) = DErr EComment.
Proof.
  exists (Elem (T"a") [] []), (T"c"). split; [tree_tac; constructor|]. split; [tree_tac|]. vm_compute. reflexivity.
Qed.

(** ** C78 *)
(** The reader comes to an end for every text. *)
Theorem C78_ends xml : parse xml <> DLoop.
Proof.
  unfold parse. destruct (upto_nul xml) as [|c s]; [discriminate|]. destruct (skip_bom (skip_ws (c :: s))) as [|x y]; [discriminate|].
  pose proof (nodes_inv (S (List.length (x :: y))) 1 true [] (x :: y) ltac:(lia) ltac:(lia) (Forall_nil _)) as H.
  destruct (nodes (S (List.length (x :: y))) 1 true [] (x :: y)); congruence.
Qed.
(** All elements of an accepted text have names and attributes as XML asks, no NUL, and are nested less
    than 99 deep. *)
Theorem C78_accepted xml l k : parse xml = DOk l -> In k l ->
  (tree k \/ exists v, k = Decl v) /\ exists h, nested k h /\ (h <= 98)%nat.
Proof.
  intros P I. pose proof (parse_fine _ _ P) as F. rewrite Forall_forall in F. destruct (F _ I) as [A L]. split; [tauto|].
  exists (height k). split; [apply height_nested|lia].
Qed.
(** What is written for a value stands for it. *)
Theorem C78_value restricted v v' : ~ In 0 v -> newlines v v' -> get_str true (escape restricted v) = v'.
Proof. intros Z H. rewrite (get_str_escape restricted v Z). symmetry. apply newlines_eq, H. Qed.
(** References, also those of other writers. *)
Theorem C78_references items : Forall item_ok items -> get_str true (flat_map written items) = flat_map meant items.
Proof. apply get_str_items. Qed.
Example references_ex : get_str true (T"&#x20AC;&lt;&#0065;b&#128512;&amp;") = [226; 130; 172; 60; 65; 98; 240; 159; 152; 128; 38].
Proof.
  apply (C78_references [Hex (T"20AC"); Named (T"lt") 60; Dec (T"0065"); Raw 98; Dec (T"128512"); Named (T"amp") 38]).
  repeat (apply Forall_cons || apply Forall_nil); cbn [item_ok];
    repeat first [progress repeat split; discriminate|split]; try discriminate;
    try (repeat (apply Forall_cons || apply Forall_nil); vm_compute; intuition congruence);
    try (left; vm_compute; reflexivity); try (right; vm_compute; split; congruence); cbn [In]; tauto.
Qed.
Example value_ex : get_str true (escape false [60; 13; 10; 38; 13; 34]) = [60; 10; 38; 10; 34].
Proof.
  apply C78_value; [vm_compute; intuition congruence|].
  repeat first [apply nl_nil|apply nl_crlf|apply nl_cr; [intros t X; discriminate X|]|apply nl_other; [discriminate|discriminate|]].
Qed.
(** A number of 2^32 or more stands for another character; numbers of surrogates give bytes that are no
    UTF-8; an unknown reference after a known one leaves a byte of the text in its place. *)
Theorem C78_number_refuted : exists ds, Forall hex_digit ds /\ number 16 ds = 4294967361 /\
  get_str true (written (Hex ds)) = T"A".
Proof. exists (T"100000041"). split; [repeat constructor; vm_compute; intuition congruence|]. split; vm_compute; reflexivity. Qed.
Theorem C78_surrogate_refuted : exists ds, Forall dec_digit ds /\ ~ scalar (number 10 ds) /\
  get_str true (written (Dec ds)) = [237; 160; 128].
Proof. exists (T"55296"). split; [repeat constructor; vm_compute; intuition congruence|]. split; [vm_compute; intuition congruence|vm_compute; reflexivity]. Qed.
Theorem C78_stale_refuted : exists name, ~ In name (map fst entities) /\
  get_str true (T"&lt;" ++ T"&" ++ name ++ T";") = T"<l" ++ name ++ T";".
Proof. exists (T"foo"). split; [vm_compute; intuition congruence|vm_compute; reflexivity]. Qed.
(** An end tag in front of everything else ends the document: what follows is not looked at.  An end tag
    closed like an empty element is an element. *)
Lemma upto_nul_lit a x : ~ In 0 a -> upto_nul (a ++ x) = a ++ upto_nul x.
Proof.
  induction a as [|c a IH]; intros H; [reflexivity|]. cbn [app upto_nul].
  rewrite (proj2 (N.eqb_neq c 0)) by (intros ->; apply H; left; reflexivity). rewrite IH; [reflexivity|].
  intros X. apply H. right. exact X.
Qed.
Theorem C78_end_tag_refuted : exists xml l, forall rest, parse (xml ++ T"</b>" ++ rest) = DOk l /\ parse xml = DOk l.
Proof.
  exists (T"<a/>"), [Elem (T"a") [] []]. intros rest. split; [|vm_compute; reflexivity]. rewrite app_assoc. change (T"<a/>" ++ T"</b>") with (T"<a/></b>"). unfold parse. rewrite upto_nul_lit by (vm_compute; intuition congruence). generalize (upto_nul rest) as r. intros r.
  reflexivity.
Qed.
Theorem C78_closed_end_tag_refuted : exists name, xml_name name /\ parse (T"</" ++ name ++ T"/>") = DOk [Elem name [] []].
Proof. exists (T"a"). split; [apply name_test; reflexivity|vm_compute; reflexivity]. Qed.

(** ** C79 *)
(** An attribute that was set is read, the others stay, names stay different. *)
Lemma get_set_same n v attrs : get_attr n (set_attr n v attrs) = Some v.
Proof.
  induction attrs as [|[m w] r IH]; cbn [set_attr get_attr]; [rewrite eqb_bytes_refl; reflexivity|].
  destruct (eqb_bytes m n) eqn:E; cbn [get_attr]; rewrite E; [reflexivity|exact IH].
Qed.
Lemma get_set_other n m v attrs : m <> n -> get_attr m (set_attr n v attrs) = get_attr m attrs.
Proof.
  intros NE. induction attrs as [|[k w] r IH]; cbn [set_attr get_attr].
  - destruct (eqb_bytes n m) eqn:E; [apply eqb_bytes_iff in E; congruence|reflexivity].
  - destruct (eqb_bytes k n) eqn:E; cbn [get_attr].
    + apply eqb_bytes_iff in E. subst k. destruct (eqb_bytes n m) eqn:E2; [apply eqb_bytes_iff in E2; congruence|reflexivity].
    + rewrite IH. reflexivity.
Qed.
Lemma set_names n v attrs : map fst (set_attr n v attrs) = map fst attrs \/
  (map fst (set_attr n v attrs) = map fst attrs ++ [n] /\ ~ In n (map fst attrs)).
Proof.
  induction attrs as [|[k w] r [IH|[IH J]]]; cbn [set_attr map fst]; [right; split; [reflexivity|intros []]|..];
    destruct (eqb_bytes k n) eqn:E; cbn [map fst]; try (left; reflexivity).
  - left. rewrite IH. reflexivity.
  - right. rewrite IH. split; [reflexivity|]. intros [X|X]; [subst k; rewrite eqb_bytes_refl in E; discriminate E|contradiction].
Qed.
Theorem C79_set n v e attrs kids : tree (Elem e attrs kids) -> xml_name n -> ~ In 0 v ->
  tree (Elem e (set_attr n v attrs) kids) /\
  get_attr n (set_attr n v attrs) = Some v /\
  (forall m, m <> n -> get_attr m (set_attr n v attrs) = get_attr m attrs).
Proof.
  intros Tr Nm Z. split; [|split; [apply get_set_same|intros m M; apply get_set_other, M]].
  inversion_clear Tr as [? ? ? Ne ND Fa Fk| | | |]. apply t_elem; [exact Ne| | |exact Fk].
  - destruct (set_names n v attrs) as [->|[-> J]]; [exact ND|].
    apply (Permutation.Permutation_NoDup (l := n :: map fst attrs)); [apply Permutation.Permutation_cons_append|]. constructor; assumption.
  - clear ND. induction Fa as [|[k w] r A Fa' IH]; cbn [set_attr]; [constructor; [cbn; tauto|constructor]|].
    destruct (eqb_bytes k n); constructor; cbn [fst snd] in *; tauto.
Qed.
(** What [reads] means for those who ask the nodes: attributes with their values, texts, and the first
    child of every name. *)
Lemma reads_attr attrs attrs' m :
  Forall2 (fun a b : list N * list N => fst a = fst b /\ newlines (snd a) (snd b)) attrs attrs' ->
  match get_attr m attrs, get_attr m attrs' with Some v, Some v' => newlines v v' | None, None => True | _, _ => False end.
Proof.
  induction 1 as [|[k w] [k' w'] r r' [A B] _ IH]; cbn [get_attr fst snd] in *; [exact I|]. subst k'.
  destruct (eqb_bytes k m); assumption.
Qed.
Lemma child_same_text name p t r : same_text p t -> child_named name (t ++ r) = child_named name r.
Proof. intros [q W|q v W V]; reflexivity. Qed.
Lemma reads_child name : forall p kids kids', reads_list p kids kids' ->
  match child_named name kids, child_named name kids' with Some k, Some k' => reads k k' | None, None => True | _, _ => False end.
Proof.
  intros p kids. revert p. induction kids as [|k r IH]; intros p kids' R.
  - inversion R as [p0 t St| |]; subst. cbn [child_named]. rewrite <- (app_nil_r kids'). rewrite (child_same_text name _ _ [] St). exact I.
  - inversion R as [|p0 v r0 r' R'|p0 t k0 k' r0 r' NT St Rk Rr]; subst.
    + cbn [child_named]. exact (IH _ _ R').
    + rewrite (child_same_text name _ _ _ St). specialize (IH _ _ Rr).
      destruct Rk as [n a a' ks ks' FA RL|v v' V|v v' V|v v' V]; cbn [child_named]; try exact IH.
      destruct (eqb_bytes n name); [|exact IH]. apply rd_elem; assumption.
Qed.
Theorem C79_read n attrs kids t : reads (Elem n attrs kids) t -> exists attrs' kids', t = Elem n attrs' kids' /\
  (forall m, match get_attr m attrs, get_attr m attrs' with Some v, Some v' => newlines v v' | None, None => True | _, _ => False end) /\
  (forall name, match child_named name kids, child_named name kids' with Some k, Some k' => reads k k' | None, None => True | _, _ => False end) /\
  (forall v v', kids = [Text v] -> ~ Forall white v -> newlines v v' -> get_text kids' = Some v') /\
  (forall v, kids = [Text v] -> Forall white v -> get_text kids' = None).
Proof.
  intros R. inversion R as [n0 a0 attrs' kids0 kids' FA RL| | |]; subst. exists attrs', kids'. split; [reflexivity|].
  split; [intros m; apply reads_attr, FA|]. split; [intros name; apply (reads_child name []), RL|].
  split; intros v.
  - intros v' -> W V. inversion RL as [|p0 v0 r0 r' R'|p0 t k0 k' r0 r' NT]; subst; [|exfalso; exact (NT v eq_refl)].
    cbn [app] in R'. inversion R' as [p1 t St| |]; subst. inversion St as [p2 W2|p2 v2 W2 V2]; subst; [contradiction|].
    cbn [get_text]. rewrite (newlines_eq _ _ V), (newlines_eq _ _ V2). reflexivity.
  - intros -> W. inversion RL as [|p0 v0 r0 r' R'|p0 t k0 k' r0 r' NT]; subst; [|exfalso; exact (NT v eq_refl)].
    cbn [app] in R'. inversion R' as [p1 t St| |]; subst. inversion St as [p2 W2|p2 v2 W2 V2]; subst; [reflexivity|contradiction].
Qed.
(** All together: the value of an attribute of a child, set, written and read. *)
Theorem C79_file n attrs kids h c v m : tree (Elem n attrs kids) -> nested (Elem n attrs kids) h -> (h <= 98)%nat ->
  forall ca ck, child_named c kids = Some (Elem c ca ck) -> get_attr m ca = Some v ->
  exists attrs' kids' ca' ck' v', parse (write_buffer [Elem n attrs kids]) = DOk [Decl declaration; Elem n attrs' kids'] /\
    root_element [Decl declaration; Elem n attrs' kids'] = Some (Elem n attrs' kids') /\
    child_named c kids' = Some (Elem c ca' ck') /\ get_attr m ca' = Some v' /\ newlines v v'.
Proof.
  intros Tr Hn L ca ck C A. destruct (proj1 (C77_document _ _ _ h Tr Hn) L) as (t&R&P).
  destruct (C79_read _ _ _ _ R) as (attrs'&kids'&->&_&RC&_). specialize (RC c). rewrite C in RC.
  destruct (child_named c kids') as [k'|] eqn:C'; [|destruct RC].
  destruct (C79_read _ _ _ _ RC) as (ca'&ck'&->&RA&_). specialize (RA m). rewrite A in RA.
  destruct (get_attr m ca') as [v'|] eqn:A'; [|destruct RA].
  exists attrs', kids', ca', ck', v'. repeat (split; [try exact P; try exact C'; try exact A'; reflexivity|]). exact RA.
Qed.
(** A new child has its place after the others and the text of a node can be set and read. *)
Theorem C79_child name kids : child_named name kids = None -> child_named name (add_child name kids) = Some (Elem name [] []).
Proof.
  unfold add_child. induction kids as [|k r IH]; cbn [app child_named]; [rewrite eqb_bytes_refl; reflexivity|].
  destruct k as [n a ks|v|v|v|v|v]; try exact IH. destruct (eqb_bytes n name); [discriminate|exact IH].
Qed.
Theorem C79_text v kids : get_text (set_text v kids) = Some v.
Proof. destruct kids as [|[n a ks|w|w|w|w|w] r]; reflexivity. Qed.
(** The last child is asked for, the first is given. *)
Theorem C79_last_refuted : exists kids k, last_child kids = Some k /\ k <> last kids k.
Proof. exists [Elem (T"a") [] []; Elem (T"b") [] []]. eexists. split; [vm_compute; reflexivity|discriminate]. Qed.
Example file_ex : exists attrs' kids' ca' ck' v',
  parse (write_buffer [Elem (T"r") [] [Elem (T"e") (set_attr (T"y") [65; 13; 66] []) []]]) = DOk [Decl declaration; Elem (T"r") attrs' kids'] /\
  root_element [Decl declaration; Elem (T"r") attrs' kids'] = Some (Elem (T"r") attrs' kids') /\
  child_named (T"e") kids' = Some (Elem (T"e") ca' ck') /\ get_attr (T"y") ca' = Some v' /\ newlines [65; 13; 66] v'.
Proof.
  set (c := Elem (T"e") (set_attr (T"y") [65; 13; 66] []) []).
  apply (C79_file (T"r") [] [c] 1 (T"e") [65; 13; 66] (T"y")) with (ca := [(T"y", [65; 13; 66])]) (ck := []); try reflexivity; try lia.
  - unfold c. cbn [set_attr]. tree_tac; repeat constructor; vm_compute; intuition congruence.
  - apply (height_nested (Elem (T"r") [] [c])).
Qed.

Print Assumptions C77_document.
Print Assumptions C77_same.
Print Assumptions C77_again.
Print Assumptions C77_white_refuted.
Print Assumptions C77_deep_refuted.
Print Assumptions C77_declaration_refuted.
Print Assumptions C77_comment_refuted.
Print Assumptions C78_ends.
Print Assumptions C78_accepted.
Print Assumptions C78_value.
Print Assumptions C78_references.
Print Assumptions C78_number_refuted.
Print Assumptions C78_surrogate_refuted.
Print Assumptions C78_stale_refuted.
Print Assumptions C78_end_tag_refuted.
Print Assumptions C78_closed_end_tag_refuted.
Print Assumptions C79_set.
Print Assumptions C79_read.
Print Assumptions C79_file.
Print Assumptions C79_child.
Print Assumptions C79_text.
Print Assumptions C79_last_refuted.
