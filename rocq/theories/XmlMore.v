(** C77 and C78, continued: the layout of texts with elements, byte order marks, declarations. *)
From Coq Require Import String List NArith ZArith Lia Bool Arith.
From Coq Require Import ZifyN ZifyNat ZifyBool.
From Verif Require Import Bytes Txt UtfModel UtfSpec UtfProofs StringModel StringProofs XmlModel XmlSpec XmlProofs XmlRef XmlProps.
Import ListNotations.
Open Scope N_scope.

(** ** Layout.  Inside text the writer adds no line breaks around elements without content. *)
Definition tag (n : list N) : list N := T"<" ++ n ++ T">".
Definition end_tag (n : list N) : list N := T"</" ++ n ++ T">".
Definition empty_tag (n : list N) : list N := T"<" ++ n ++ T"/>".
Lemma empties_line names : forall st, just st = false -> first st = false -> (0 < tdepth st <= depth st)%nat ->
  fst (print_all st (map (fun n => Elem n [] []) names)) = flat_map empty_tag names /\
  snd (print_all st (map (fun n => Elem n [] []) names)) = st.
Proof.
  induction names as [|n r IH]; intros st J F D; [split; reflexivity|]. cbn [map print_all flat_map].
  destruct st as [j f d t]. cbn [just first depth tdepth] in *. subst j f.
  destruct t as [|t]; [lia|]. rewrite print_elem. unfold open_element, prepare, seal. cbn [just first depth tdepth].
  cbn [print_all]. unfold close_element. cbn [just first depth tdepth pred].
  replace (S t =? S d)%nat with false by (symmetry; apply Nat.eqb_neq; lia).
  destruct d as [|d]; [lia|].
  specialize (IH (mkSt false false (S d) (S t)) eq_refl eq_refl D). destruct (print_all _ _) as [o st']. cbn [fst snd] in *.
  destruct IH as [-> ->]. split; [|reflexivity]. unfold empty_tag. cbn [flat_map app]. rewrite !app_nil_r, <- !app_assoc. reflexivity.
Qed.
Theorem C77_line n v names : ~ In 60 v -> ~ In 62 v -> ~ In 38 v ->
  write_buffer [Elem n [] (Text v :: map (fun n => Elem n [] []) names)] =
  T"<?" ++ declaration ++ T"?>" ++ [10] ++ tag n ++ v ++ flat_map empty_tag names ++ end_tag n.
Proof.
  intros A B C. rewrite write_root. unfold ebody. cbn [flat_map print_all print].
  assert (E : escape true v = v).
  { clear n names. induction v as [|c v IH]; [reflexivity|]. cbn [In] in *. rewrite escape_cons, IH by tauto.
    unfold esc1. replace ((c =? 38) || (c =? 60) || (c =? 62)) with false by (symmetry; lia). reflexivity. }
  rewrite E. change (seal (inner after_decl)) with (@nil N). cbn [app].
  destruct (empties_line names (mkSt false false 1 1)) as [X Y]; try reflexivity; [cbn; lia|].
  change (mkSt false (first (inner after_decl)) (depth (inner after_decl)) (depth (inner after_decl))) with (mkSt false false 1 1).
  destruct (print_all (mkSt false false 1 1) _) as [o st']. cbn [fst snd] in X, Y. subst o st'. cbn [tdepth].
  unfold tag, end_tag. cbn [app]. change (lead after_decl) with [10]. change (T"<?") with [60; 63]. change (T"?>") with [63; 62].
  change (T"<") with [60]. change (T">") with [62]. change (T"</") with [60; 47]. generalize declaration. intros dv.
  rewrite <- ?app_assoc. cbn [app]. rewrite <- ?app_assoc. cbn [app]. rewrite <- ?app_assoc. reflexivity.
Qed.
Example C77_line_case : write_buffer [Elem (T"p") [] [Text (T"x"); Elem (T"b") [] []; Elem (T"i") [] []]] =
  T"<?" ++ declaration ++ T"?>" ++ [10] ++ T"<p>x<b/><i/></p>".
Proof. apply (C77_line (T"p") (T"x") [T"b"; T"i"]); vm_compute; intuition congruence. Qed.

(** ** A text behind a byte order mark is read as the text alone. *)
Definition mark : list N := [239; 187; 191].
Theorem C78_mark c s : ~ white c -> (forall r, c :: s <> mark ++ r) -> parse (mark ++ c :: s) = parse (c :: s).
Proof.
  intros W M. destruct (N.eq_dec c 0) as [->|Z]; [reflexivity|].
  unfold parse. replace (upto_nul (c :: s)) with (c :: upto_nul s) by (cbn [upto_nul]; destruct (N.eqb_spec c 0); [contradiction|reflexivity]).
  replace (upto_nul (mark ++ c :: s)) with (mark ++ c :: upto_nul s)
    by (unfold mark; cbn [app upto_nul]; destruct (N.eqb_spec c 0); [contradiction|reflexivity]).
  change (skip_ws (mark ++ c :: upto_nul s)) with (mark ++ c :: upto_nul s). rewrite skip_ws_stop by exact W.
  unfold skip_bom. change (is_prefix [239; 187; 191] (mark ++ c :: upto_nul s)) with true. cbv beta iota. change (skipn 3 (mark ++ c :: upto_nul s)) with (c :: upto_nul s).
  replace (is_prefix [239; 187; 191] (c :: upto_nul s)) with false; [reflexivity|].
  symmetry. apply is_prefix_false. intros (t&E). destruct (upto_nul_prefix s) as (y&Y). apply (M (t ++ y)). rewrite Y. unfold mark. rewrite app_assoc.
  change ([239; 187; 191] ++ t ++ y) with (([239; 187; 191] ++ t) ++ y). rewrite <- E. reflexivity.
Qed.
Example C78_mark_case : parse (mark ++ T"<a/>") = DOk [Elem (T"a") [] []].
Proof. vm_compute. reflexivity. Qed.

(** ** The declarations of an accepted document stand in front of everything else. *)
Definition in_front (l : list node) : Prop :=
  exists a b, l = a ++ b /\ Forall (fun k => is_decl k = true) a /\ Forall (fun k => is_decl k = false) b.
Lemma front_snoc l k : in_front l -> is_decl k = false -> in_front (l ++ [k]).
Proof.
  intros (a&b&->&A&B) K. exists a, (b ++ [k]). rewrite app_assoc. split; [reflexivity|]. split; [exact A|].
  apply Forall_app. split; [exact B|]. constructor; [exact K|constructor].
Qed.
Lemma front_decl l k : in_front l -> decl_allowed true l = true -> is_decl k = true -> in_front (l ++ [k]).
Proof.
  intros (a&b&->&A&B) D K. destruct b as [|x b] using rev_ind.
  - exists (a ++ [k]), []. rewrite !app_nil_r. split; [reflexivity|]. split; [|constructor].
    apply Forall_app. split; [exact A|]. constructor; [exact K|constructor].
  - exfalso. apply Forall_app in B. destruct B as [_ B]. inversion_clear B as [|? ? X _].
    unfold decl_allowed in D. rewrite app_assoc in D. destruct ((a ++ b) ++ [x]) as [|y r] eqn:E; [destruct (a ++ b); discriminate E|].
    rewrite <- E, last_last, X in D. cbn [andb] in D. rewrite andb_false_r in D. discriminate D.
Qed.
Lemma nodes_front : forall f d kids s, in_front kids ->
  match nodes f d true kids s with Stop k => in_front k | EndTag k _ _ => in_front k | _ => True end.
Proof.
  induction f as [|f IH]; intros d kids s F; [exact I|]. cbn [nodes].
  destruct (skip_ws s) as [|c r]; [exact F|]. cbv zeta.
  assert (Go : forall x, (forall n rest, x = inl (n, rest) -> is_decl n = false) ->
    match (match x with inl (n, rest) => nodes f d true (kids ++ [n]) rest | inr e => NErr e end) with
    | Stop k => in_front k | EndTag k _ _ => in_front k | _ => True end).
  { intros [[n rest]|e] H; [|exact I]. apply IH, front_snoc; [exact F|]. eapply H. reflexivity. }
  assert (Sp : forall stop s mk e, (forall v, is_decl (mk v) = false) -> forall n rest, read_special stop s mk e = inl (n, rest) -> is_decl n = false).
  { intros stop s0 mk e H n rest. unfold read_special. destruct (parse_text stop s0) as [[v r']|]; [|discriminate]. intros X. injection X as <- _. apply H. }
  destruct (is_prefix (T"<?") (c :: r)).
  { unfold read_special. destruct (parse_text (T"?>") (skipn 2 (c :: r))) as [[v r']|]; [|exact I].
    destruct (decl_allowed true kids) eqn:DA; [|exact I]. apply IH, front_decl; [exact F|exact DA|reflexivity]. }
  destruct (is_prefix (T"<!--") (c :: r)); [apply Go, Sp; reflexivity|].
  destruct (is_prefix (T"<![CDATA[") (c :: r)); [apply Go, Sp; reflexivity|].
  destruct (is_prefix (T"<!") (c :: r)); [apply Go, Sp; reflexivity|].
  destruct (c =? 60).
  - destruct (parse_name _) as [[n s3]|]; [|exact I].
    destruct (parse_attrs (S (List.length s3)) [] s3) as [attrs [|] rest|e|]; try exact I.
    + apply IH, front_snoc; [exact F|reflexivity].
    + destruct (hd 0 (skip_ws r) =? 47); [exact F|]. destruct rest as [|x rest]; [exact I|].
      destruct (d + 1 =? max_depth); [exact I|].
      destruct (nodes f (d + 1) false [] (x :: rest)) as [ki|ki n' rest'|e|]; try exact I.
      destruct (eqb_bytes n' n); [|exact I]. apply IH, front_snoc; [exact F|reflexivity].
  - destruct (parse_text (T"<") s) as [[v [|x r']]|]; try exact I. apply IH, front_snoc; [exact F|reflexivity].
Qed.
Theorem C78_declarations xml l : parse xml = DOk l ->
  exists a b, l = a ++ b /\ Forall (fun k => exists v, k = Decl v) a /\ Forall (fun k => forall v, k <> Decl v) b.
Proof.
  intros P. assert (F : in_front l).
  { unfold parse in P. destruct (upto_nul xml) as [|c s]; [discriminate P|]. destruct (skip_bom (skip_ws (c :: s))) as [|x y]; [discriminate P|].
    pose proof (nodes_front (S (List.length (x :: y))) 1 [] (x :: y)) as H.
    assert (F : in_front []) by (exists [], []; repeat split; constructor). specialize (H F).
    destruct (nodes (S (List.length (x :: y))) 1 true [] (x :: y)) as [k|k n r|e|]; try discriminate P; injection P as <-; exact H. }
  destruct F as (a&b&E&A&B). exists a, b. split; [exact E|]. split.
  - revert A. apply Forall_impl. intros k K. destruct k; try discriminate K. eexists. reflexivity.
  - revert B. apply Forall_impl. intros k K v ->. discriminate K.
Qed.
Example C78_declarations_case : exists a b c, parse (T"<?x?><?y?><a/>") = DOk [a; b; c] /\ parse (T"<a/><?x?>") = DErr EDecl /\ parse (T"<?x?><a/><?y?>") = DErr EDecl.
Proof. do 3 eexists. split; [vm_compute; reflexivity|]. split; vm_compute; reflexivity. Qed.

(** ** A new child comes behind the others, which keep their places; the first child is the first element. *)
Theorem C79_order name kids :
  (forall i k, nth_error kids i = Some k -> nth_error (add_child name kids) i = Some k) /\
  nth_error (add_child name kids) (List.length kids) = Some (Elem name [] []) /\
  List.length (add_child name kids) = S (List.length kids).
Proof.
  unfold add_child. split; [|split].
  - intros i k H. rewrite nth_error_app1; [exact H|]. apply nth_error_Some. congruence.
  - rewrite nth_error_app2, Nat.sub_diag by lia. reflexivity.
  - rewrite app_length. cbn [List.length]. lia.
Qed.
Theorem C79_first kids k : first_child kids = Some k <->
  exists a b, kids = a ++ k :: b /\ (exists n at_ ks, k = Elem n at_ ks) /\ Forall (fun x => forall n at_ ks, x <> Elem n at_ ks) a.
Proof.
  unfold first_child. split.
  - induction kids as [|x r IH]; [discriminate|]. cbn [root_element].
    destruct x as [n at_ ks|v|v|v|v|v]; [intros H; injection H as <-; exists [], r; split; [reflexivity|]; split; [do 3 eexists; reflexivity|constructor]|..];
    intros H; destruct (IH H) as (a&b&->&K&F); (eexists (_ :: a), b; split; [reflexivity|]; split; [exact K|constructor; [discriminate|exact F]]).
  - intros (a&b&->&(n&at_&ks&->)&F). induction F as [|x r X F IH]; [reflexivity|]. cbn [app root_element].
    destruct x as [n' at' ks'|v|v|v|v|v]; try exact IH. exfalso. exact (X n' at' ks' eq_refl).
Qed.
Example C79_first_case : first_child [Comment (T"x"); Elem (T"a") [] []; Elem (T"b") [] []] = Some (Elem (T"a") [] []).
Proof. reflexivity. Qed.

(** Setting the text of a node keeps its other children and their order. *)
Theorem C79_text_keeps v kids : exists kept, (set_text v kids = Text v :: kept /\ (kept = kids \/ exists w, kids = Text w :: kept)) \/
  (exists w, kids = Cdata w :: kept /\ set_text v kids = Cdata v :: kept).
Proof. destruct kids as [|[n a ks|w|w|w|w|w] r]; try (eexists; left; split; [reflexivity|]; eauto; fail). exists r. right. exists w. split; reflexivity. Qed.
Example C79_text_case : set_text (T"x") [Text (T"y"); Elem (T"a") [] []] = [Text (T"x"); Elem (T"a") [] []] /\
  set_text (T"x") [Elem (T"a") [] []] = [Text (T"x"); Elem (T"a") [] []].
Proof. split; reflexivity. Qed.

Print Assumptions C77_line.
Print Assumptions C78_mark.
Print Assumptions C78_declarations.
Print Assumptions C79_order.
Print Assumptions C79_first.
Print Assumptions C79_text_keeps.
