(** C68: JSON text. *)
From Coq Require Import List NArith ZArith String Lia Bool Sorting.
From Coq Require Import ZifyN ZifyNat ZifyBool.
From Verif Require Import Bytes BytesProofs Txt NumModel NumProofs UtfSpec UtfModel UtfProofs JsonModel JsonProofs JsonParse.
Import ListNotations.
Open Scope N_scope.
Ltac Zify.zify_post_hook ::= Z.div_mod_to_equations.

(** ** Induction over values *)
Fixpoint json_ind' (P : json -> Prop)
  (Hnull : P JNull) (Hbool : forall b, P (JBool b)) (Hint : forall z, P (JInt z)) (Huns : forall n, P (JUns n))
  (Hfloat : forall s q, P (JFloat s q)) (Hstr : forall s, P (JStr s))
  (Harr : forall l, Forall P l -> P (JArr l)) (Hobj : forall m, Forall (fun p => P (snd p)) m -> P (JObj m)) (j : json) : P j :=
  let rec := json_ind' P Hnull Hbool Hint Huns Hfloat Hstr Harr Hobj in
  match j with
  | JNull => Hnull | JBool b => Hbool b | JInt z => Hint z | JUns n => Huns n | JFloat s q => Hfloat s q | JStr s => Hstr s
  | JArr l => Harr l ((fix go l : Forall P l := match l with [] => Forall_nil _ | x :: r => Forall_cons x (rec x) (go r) end) l)
  | JObj m => Hobj m ((fix go m : Forall (fun p => P (snd p)) m :=
                         match m with [] => Forall_nil _ | x :: r => Forall_cons x (rec (snd x)) (go r) end) m)
  end.

(** ** Specification: the values a document can carry.  Texts are UTF-8; numbers are 64-bit and a
    non-negative one is unsigned; the entries of an object are sorted by key and have different keys;
    no fractions. *)
Definition key_lt (p q : list N * json) : Prop := str_ltb (fst p) (fst q) = true.
Fixpoint jwf (j : json) : Prop :=
  match j with
  | JNull | JBool _ => True
  | JInt z => (- 2 ^ 63 <= z < 0)%Z
  | JUns n => n < 2 ^ 64
  | JFloat _ _ => False
  | JStr s => wf8 s
  | JArr l => (fix all l := match l with [] => True | x :: r => jwf x /\ all r end) l
  | JObj m => StronglySorted key_lt m /\ (fix all m := match m with [] => True | (k, x) :: r => wf8 k /\ jwf x /\ all r end) m
  end.
Lemma jwf_arr l : jwf (JArr l) <-> Forall jwf l.
Proof.
  cbn [jwf]. induction l as [|x l IH]; [split; auto|]. split.
  - intros [H1 H2]. constructor; [exact H1|]. now apply IH.
  - intros H. inversion_clear H. split; [assumption|]. now apply IH.
Qed.
Lemma jwf_obj m : jwf (JObj m) <-> StronglySorted key_lt m /\ Forall (fun p => wf8 (fst p) /\ jwf (snd p)) m.
Proof.
  cbn [jwf]. split; intros [H0 H]; (split; [exact H0|]); clear H0; induction m as [|[k x] m IH]; auto.
  - destruct H as (H1 & H2 & H3). constructor; [split; assumption|]. now apply IH.
  - inversion_clear H as [|? ? [H1 H2] H3]. split; [exact H1|]. split; [exact H2|]. now apply IH.
Qed.

(** ** The text of a value, without the error cases *)
Lemma dapp_text a b : dapp (DText a) (DText b) = DText (a ++ b). Proof. reflexivity. Qed.

(** A value in front of a delimiter is parsed, from any stack, within a number of steps bounded by its text. *)
Definition parses (j : json) : Prop := exists t, dump j = DText t /\ (1 <= List.length t)%nat /\
  forall r st, delim r -> exists tok b1 k,
    scan (t ++ r) = (tok, b1) /\ tok <> TEndArr /\ (1 <= k <= 2 * List.length t)%nat /\
    forall f, prun (k + f) (SValue tok b1 st) = prun f (SAfter j r st).

Lemma prun_S f s s' : pstep s = inl s' -> prun (S f) s = prun f s'.
Proof. intros E. cbn [prun]. now rewrite E. Qed.
Lemma parses_scalar j t tok : dump j = DText t -> (1 <= List.length t)%nat -> tok <> TEndArr ->
  (forall r, delim r -> scan (t ++ r) = (tok, r)) -> (forall b st, pstep (SValue tok b st) = inl (SAfter j b st)) -> parses j.
Proof.
  intros E L N S P. exists t. split; [exact E|]. split; [exact L|]. intros r st D. exists tok, r, 1%nat.
  split; [now apply S|]. split; [exact N|]. split; [lia|]. intros f. apply prun_S. apply P.
Qed.
Lemma dstr_wf s : wf8 s -> exists t, dstr s = DText (34 :: t ++ [34]) /\ forall r, scan (34 :: t ++ 34 :: r) = (TStr s, r).
Proof.
  intros (cs & F & ->). unfold dstr. rewrite dump_escaped_enc by exact F. eexists. split; [reflexivity|].
  intros r. rewrite scan_quote. now apply scan_string_enc.
Qed.

(** Arrays: the elements after the first. *)
Definition arr_els := fix els (l : list json) := match l with
  | [] => DText [] | y :: l' => dapp (DText [44]) (dapp (dump y) (els l')) end.
Lemma arr_rest : forall l, Forall parses l -> exists t, arr_els l = DText t /\
  forall v acc r st, exists k, (1 <= k <= 2 * List.length t + 1)%nat /\
    forall f, prun (k + f) (SAfter v (t ++ 93 :: r) (FArr acc :: st)) = prun f (SAfter (JArr (acc ++ v :: l)) r st).
Proof.
  induction l as [|y l IH]; intros F.
  - exists []. split; [reflexivity|]. intros v acc r st. exists 1%nat. split; [cbn; lia|]. intros f.
    apply prun_S. cbn [pstep app]. now rewrite scan_rbracket.
  - inversion_clear F as [|? ? Py F']. destruct (IH F') as (tl & El & Kl). destruct Py as (ty & Ey & Ly & Ky).
    exists (44 :: ty ++ tl). split; [cbn [arr_els]; rewrite Ey, El; reflexivity|].
    intros v acc r st.
    assert (D : delim (tl ++ 93 :: r)).
    { destruct l as [|z l]; cbn [arr_els] in El.
      - injection El as <-. cbn. auto.
      - destruct (dump z); [|discriminate|discriminate]. destruct (arr_els l); [|discriminate|discriminate]. injection El as <-. cbn. auto. }
    destruct (Ky (tl ++ 93 :: r) (FArr (acc ++ [v]) :: st) D) as (tok & b1 & k1 & S1 & N1 & B1 & P1).
    destruct (Kl y (acc ++ [v]) r st) as (k2 & B2 & P2).
    exists (1 + (k1 + k2))%nat. split; [cbn [List.length]; rewrite app_length; lia|]. intros f.
    cbn [Nat.add]. erewrite prun_S.
    2: { cbn [pstep app]. rewrite scan_comma. rewrite <- app_assoc, S1. reflexivity. }
    rewrite <- Nat.add_assoc, P1, P2. now rewrite <- app_assoc.
Qed.

(** Objects: the map built so far is a sorted prefix. *)
Lemma obj_set_last m k v : Forall (fun p => str_ltb (fst p) k = true) m -> obj_set m k v = m ++ [(k, v)].
Proof.
  induction m as [|[k' v'] m IH]; intros F; [reflexivity|]. inversion_clear F as [|? ? H F']. cbn [fst] in H.
  cbn [obj_set app]. destruct (str_ltb_gt _ _ H) as [-> ->]. now rewrite IH.
Qed.
Definition obj_els := fix els (m : list (list N * json)) := match m with
  | [] => DText [] | (k', y) :: m' => dapp (DText [44]) (dapp (dstr k') (dapp (DText [58]) (dapp (dump y) (els m')))) end.
Lemma obj_rest : forall m, Forall (fun p => wf8 (fst p) /\ parses (snd p)) m -> exists t, obj_els m = DText t /\
  forall v key acc r st, StronglySorted key_lt (acc ++ (key, v) :: m) -> exists k, (1 <= k <= 2 * List.length t + 1)%nat /\
    forall f, prun (k + f) (SAfter v (t ++ 125 :: r) (FObj acc key :: st)) = prun f (SAfter (JObj (acc ++ (key, v) :: m)) r st).
Proof.
  induction m as [|[k' y] m IH]; intros F.
  - exists []. split; [reflexivity|]. intros v key acc r st S. exists 1%nat. split; [cbn; lia|]. intros f.
    apply prun_S. cbn [pstep app]. rewrite scan_rbrace. rewrite obj_set_last; [reflexivity|].
    apply Forall_forall. intros p Hp. clear -S Hp. induction acc as [|a acc IH]; [easy|].
    cbn [app] in S. inversion_clear S as [|? ? S' H]. destruct Hp as [<-|Hp]; [|now apply IH].
    rewrite Forall_forall in H. apply (H (key, v)). apply in_or_app. right. now left.
  - inversion_clear F as [|? ? [Wk Py] F']. cbn [fst snd] in Wk, Py. destruct (IH F') as (tl & El & Kl).
    destruct Py as (ty & Ey & Ly & Ky). destruct (dstr_wf k' Wk) as (tk & Ek & Sk).
    exists (44 :: 34 :: tk ++ 34 :: 58 :: ty ++ tl). split.
    { cbn [obj_els]. rewrite Ek, Ey, El. rewrite !dapp_text. f_equal. cbn [app]. now rewrite <- app_assoc. }
    intros v key acc r st S.
    assert (D : delim (tl ++ 125 :: r)).
    { destruct m as [|[k2 z] m]; cbn [obj_els] in El.
      - injection El as <-. cbn. auto.
      - destruct (dstr k2); [|discriminate|discriminate]. destruct (dump z); [|discriminate|discriminate].
        destruct (obj_els m); [|discriminate|discriminate]. injection El as <-. cbn. auto. }
    destruct (Ky (tl ++ 125 :: r) (FObj (acc ++ [(key, v)]) k' :: st) D) as (tok & b1 & k1 & S1 & N1 & B1 & P1).
    assert (S' : StronglySorted key_lt ((acc ++ [(key, v)]) ++ (k', y) :: m)) by now rewrite <- app_assoc.
    destruct (Kl y k' (acc ++ [(key, v)]) r st S') as (k2 & B2 & P2).
    exists (1 + (k1 + k2))%nat. split; [cbn [List.length]; rewrite !app_length; cbn [List.length]; rewrite app_length; lia|]. intros f.
    cbn [Nat.add]. erewrite prun_S.
    2: { cbn [pstep app]. rewrite scan_comma. rewrite <- app_assoc. cbn [app]. rewrite Sk. cbn [parse_key]. rewrite scan_colon.
         rewrite <- app_assoc. rewrite S1. rewrite obj_set_last; [reflexivity|].
         apply Forall_forall. intros p Hp. clear -S Hp. induction acc as [|a acc IH]; [easy|].
         cbn [app] in S. inversion_clear S as [|? ? S' H]. destruct Hp as [<-|Hp]; [|now apply IH].
         rewrite Forall_forall in H. apply (H (key, v)). apply in_or_app. right. now left. }
    rewrite <- Nat.add_assoc, P1, P2. now rewrite <- app_assoc.
Qed.

Lemma jwf_parses : forall j, jwf j -> parses j.
Proof.
  apply (json_ind' (fun j => jwf j -> parses j)).
  - intros _. eapply parses_scalar; [reflexivity|cbn; lia| |intros; apply scan_null|]; easy.
  - intros [] _.
    + eapply parses_scalar; [reflexivity|cbn; lia| |intros; apply scan_true|]; easy.
    + eapply parses_scalar; [reflexivity|cbn; lia| |intros; apply scan_false|]; easy.
  - intros z Hz. cbn [jwf] in Hz.
    assert (E : int_text z = 45 :: dec (Z.to_N (- z))) by (unfold int_text; now replace (z <? 0)%Z with true by lia).
    apply (parses_scalar (JInt z) (int_text z) (TInt z)); [reflexivity|rewrite E; cbn [List.length]; lia|easy| |reflexivity].
    intros r D. rewrite E. cbn [app]. rewrite scan_neg; [f_equal; f_equal; lia|exact D|lia].
  - intros n Hn. cbn [jwf] in Hn. apply (parses_scalar (JUns n) (dec n) (TUns n)); [reflexivity| |easy| |reflexivity].
    + destruct (dec_head n) as (c & d & -> & _). cbn [List.length]. lia.
    + intros r D. now apply scan_dec.
  - easy.
  - intros s Hs. destruct (dstr_wf s Hs) as (t & E & S).
    apply (parses_scalar (JStr s) (34 :: t ++ [34]) (TStr s)); [exact E|cbn [List.length]; lia|easy| |reflexivity].
    intros r _. cbn [app]. rewrite <- app_assoc. apply S.
  - intros l IH H. apply jwf_arr in H. assert (F : Forall parses l).
    { apply Forall_forall. intros x Hx. rewrite Forall_forall in IH, H. auto. } clear IH H.
    destruct l as [|x l].
    + exists (T"[]"). split; [reflexivity|]. split; [cbn; lia|]. intros r st D. exists TBeginArr, (93 :: r), 1%nat.
      change (T"[]" ++ r) with (91 :: 93 :: r).
      split; [apply scan_lbracket|]. split; [easy|]. split; [cbn; lia|]. intros f. apply prun_S. cbn [pstep]. now rewrite scan_rbracket.
    + inversion_clear F as [|? ? (tx & Ex & Lx & Kx) F']. destruct (arr_rest l F') as (tl & El & Kl).
      exists (91 :: tx ++ tl ++ [93]). split.
      { cbn [dump]. change (fix els l := match l with [] => DText [] | y :: l' => dapp (DText [44]) (dapp (dump y) (els l')) end) with arr_els.
        rewrite Ex, El. reflexivity. }
      split; [cbn [List.length]; lia|]. intros r st D.
      assert (D' : delim (tl ++ 93 :: r)).
      { destruct l as [|z l]; cbn [arr_els] in El.
        - injection El as <-. cbn. auto.
        - destruct (dump z); [|discriminate|discriminate]. destruct (arr_els l); [|discriminate|discriminate]. injection El as <-. cbn. auto. }
      destruct (Kx (tl ++ 93 :: r) (FArr [] :: st) D') as (tok & b1 & k1 & S1 & N1 & B1 & P1).
      destruct (Kl x [] r st) as (k2 & B2 & P2).
      exists TBeginArr, (tx ++ tl ++ 93 :: r), (1 + (k1 + k2))%nat.
      split; [cbn [app]; rewrite <- !app_assoc; apply scan_lbracket|]. split; [easy|].
      split; [cbn [List.length]; rewrite !app_length; cbn [List.length]; lia|]. intros f.
      cbn [Nat.add]. erewrite prun_S.
      2: { cbn [pstep]. rewrite S1. destruct tok; try reflexivity. easy. }
      rewrite <- Nat.add_assoc, P1, P2. reflexivity.
  - intros m IH H. apply jwf_obj in H as [So H]. assert (F : Forall (fun p => wf8 (fst p) /\ parses (snd p)) m).
    { apply Forall_forall. intros x Hx. rewrite Forall_forall in IH, H. destruct (H x Hx). auto. } clear IH H.
    destruct m as [|[key x] m].
    + exists (T"{}"). split; [reflexivity|]. split; [cbn; lia|]. intros r st D. exists TBeginObj, (125 :: r), 1%nat.
      change (T"{}" ++ r) with (123 :: 125 :: r).
      split; [apply scan_lbrace|]. split; [easy|]. split; [cbn; lia|]. intros f. apply prun_S. cbn [pstep]. now rewrite scan_rbrace.
    + inversion_clear F as [|? ? [Wk Px] F']. cbn [fst snd] in Wk, Px. destruct Px as (tx & Ex & Lx & Kx).
      destruct (obj_rest m F') as (tl & El & Kl). destruct (dstr_wf key Wk) as (tk & Ek & Sk).
      exists (123 :: 34 :: tk ++ 34 :: 58 :: tx ++ tl ++ [125]). split.
      { cbn [dump]. change (fix els m := match m with [] => DText [] | (k', y) :: m' => dapp (DText [44]) (dapp (dstr k') (dapp (DText [58]) (dapp (dump y) (els m')))) end) with obj_els.
        rewrite Ek, Ex, El. rewrite !dapp_text. f_equal. cbn [app]. now rewrite <- app_assoc. }
      split; [cbn [List.length]; lia|]. intros r st D.
      assert (D' : delim (tl ++ 125 :: r)).
      { destruct m as [|[k2 z] m]; cbn [obj_els] in El.
        - injection El as <-. cbn. auto.
        - destruct (dstr k2); [|discriminate|discriminate]. destruct (dump z); [|discriminate|discriminate].
          destruct (obj_els m); [|discriminate|discriminate]. injection El as <-. cbn. auto. }
      destruct (Kx (tl ++ 125 :: r) (FObj [] key :: st) D') as (tok & b1 & k1 & S1 & N1 & B1 & P1).
      destruct (Kl x key [] r st So) as (k2 & B2 & P2).
      exists TBeginObj, (34 :: tk ++ 34 :: 58 :: tx ++ tl ++ 125 :: r), (1 + (k1 + k2))%nat.
      split.
      { cbn [app]. rewrite <- !app_assoc. cbn [app]. rewrite <- !app_assoc. apply scan_lbrace. }
      split; [easy|]. split; [cbn [List.length]; rewrite !app_length; cbn [List.length]; rewrite !app_length; cbn [List.length]; lia|]. intros f.
      cbn [Nat.add]. erewrite prun_S.
      2: { cbn [pstep]. rewrite Sk. cbn [parse_key]. rewrite scan_colon. rewrite S1. reflexivity. }
      rewrite <- Nat.add_assoc, P1, P2. reflexivity.
Qed.

(** ** C68 *)
(** Every value a document can carry is written without an error and read back unchanged. *)
Theorem C68_round_trip j : jwf j -> exists t, dump j = DText t /\ parse t = Some j.
Proof.
  intros H. destruct (jwf_parses j H) as (t & E & L & K). exists t. split; [exact E|].
  destruct (K [] [] I) as (tok & b1 & k & Sc & N & B & P). rewrite app_nil_r in Sc.
  unfold parse, parse_run.
  assert (Eb : skip_bom t = Some t).
  { destruct t as [|c t]; [cbn [List.length] in L; lia|]. unfold skip_bom.
    assert (c <> 239); [|now replace (c =? 239) with false by lia].
    intros ->. unfold scan in Sc. rewrite skip_id in Sc by (try reflexivity; easy).
    cbn in Sc. injection Sc as <- <-. specialize (P 1%nat). destruct k as [|k]; [lia|]. cbn in P. discriminate. }
  rewrite Eb, Sc.
  replace (2 * List.length t + 4)%nat with (k + S (2 * List.length t + 3 - k))%nat by lia.
  rewrite P. cbn [prun pstep]. unfold scan. rewrite skip_nil. reflexivity.
Qed.
Example C68_round_trip_ex : jwf (JObj [(T"a", JStr [195; 164; 34; 92; 0; 240; 159; 152; 128]); (T"b", JArr [JUns 18446744073709551615; JInt (-1); JObj []])]).
Proof.
  cbn [jwf]. split; [repeat constructor|]. split; [exists [97]; split; [repeat (apply Forall_cons; [unfold scalar; lia|]); apply Forall_nil|reflexivity]|].
  split; [exists [228; 34; 92; 0; 128512]; split; [repeat (apply Forall_cons; [unfold scalar; lia|]); apply Forall_nil|reflexivity]|].
  split; [exists [98]; split; [repeat (apply Forall_cons; [unfold scalar; lia|]); apply Forall_nil|reflexivity]|].
  split; [|exact I]. split; [lia|]. split; [lia|]. split; [|exact I]. split; [constructor|exact I].
Qed.

(** ** Writing fails exactly on text that is not UTF-8 *)
Fixpoint no_float (j : json) : Prop :=
  match j with
  | JFloat _ _ => False
  | JArr l => (fix all l := match l with [] => True | x :: r => no_float x /\ all r end) l
  | JObj m => (fix all m := match m with [] => True | (_, x) :: r => no_float x /\ all r end) m
  | _ => True
  end.
(** [text_in s j]: [s] is a string or a key somewhere in [j]. *)
Inductive text_in (s : list N) : json -> Prop :=
| ti_str : text_in s (JStr s)
| ti_arr l x : In x l -> text_in s x -> text_in s (JArr l)
| ti_key m x : In (s, x) m -> text_in s (JObj m)
| ti_obj m k x : In (k, x) m -> text_in s x -> text_in s (JObj m).
Definition dumps (d : dumped) : Prop := exists t, d = DText t.
Lemma dapp_dumps a b : dumps (dapp a b) <-> dumps a /\ dumps b.
Proof.
  split.
  - intros [t E]. destruct a as [x| |]; cbn [dapp] in E; try discriminate. destruct b as [y| |]; try discriminate.
    split; eexists; reflexivity.
  - intros [[x ->] [y ->]]. eexists; reflexivity.
Qed.
Lemma dumps_text t : dumps (DText t). Proof. now exists t. Qed.
Lemma dstr_dumps s : bytes_ok s -> (dumps (dstr s) <-> wf8 s).
Proof.
  intros B. rewrite <- (dump_escaped_iff s B). unfold dstr. destruct (dump_escaped s).
  - split; [easy|]. intros _. apply dumps_text.
  - split; [intros [t E]; discriminate|easy].
Qed.
Definition texts_ok (j : json) : Prop := forall s, text_in s j -> bytes_ok s.
Lemma dumps_iff : forall j, no_float j -> texts_ok j -> (dumps (dump j) <-> forall s, text_in s j -> wf8 s).
Proof.
  apply (json_ind' (fun j => no_float j -> texts_ok j -> (dumps (dump j) <-> forall s, text_in s j -> wf8 s))).
  - intros _ _. split; [intros _ s K; inversion K|intros _; apply dumps_text].
  - intros [] _ _; (split; [intros _ s K; inversion K|intros _; apply dumps_text]).
  - intros z _ _. split; [intros _ s K; inversion K|intros _; apply dumps_text].
  - intros z _ _. split; [intros _ s K; inversion K|intros _; apply dumps_text].
  - easy.
  - intros s _ B. cbn [dump]. rewrite dstr_dumps by (apply B; constructor). split.
    + intros W s' K. inversion K. now subst.
    + intros H. apply H. constructor.
  - intros l IH NF B.
    assert (E : dumps (dump (JArr l)) <-> Forall (fun x => dumps (dump x)) l).
    { destruct l as [|x l]; [split; [constructor|intros _; apply dumps_text]|].
      cbn [dump]. change (fix els l := match l with [] => DText [] | y :: l' => dapp (DText [44]) (dapp (dump y) (els l')) end) with arr_els.
      rewrite !dapp_dumps.
      assert (K : dumps (arr_els l) <-> Forall (fun x => dumps (dump x)) l).
      { clear. induction l as [|y l IH]; cbn [arr_els]; [split; [constructor|intros _; apply dumps_text]|].
        rewrite !dapp_dumps, IH. split.
        - intros (_ & H1 & H2). now constructor.
        - intros H. inversion_clear H. split; [apply dumps_text|]. now split. }
      rewrite K. split.
      - intros (_ & H1 & H2 & _). now constructor.
      - intros H. inversion_clear H. split; [apply dumps_text|]. split; [assumption|]. split; [assumption|apply dumps_text]. }
    rewrite E. clear E. cbn [no_float] in NF.
    assert (NF' : Forall no_float l) by (clear -NF; induction l as [|x l IHl]; [constructor|]; destruct NF; constructor; auto).
    rewrite Forall_forall in *. split.
    + intros H s K. inversion K as [|? x Hx Kx| |]; subst. refine (proj1 (IH x Hx (NF' x Hx) _) (H x Hx) s Kx).
      intros s' K'. apply B. eapply ti_arr; eassumption.
    + intros H x Hx. refine (proj2 (IH x Hx (NF' x Hx) _) _).
      * intros s' K'. apply B. eapply ti_arr; eassumption.
      * intros s' K'. apply H. eapply ti_arr; eassumption.
  - intros m IH NF B.
    assert (E : dumps (dump (JObj m)) <-> Forall (fun p => dumps (dstr (fst p)) /\ dumps (dump (snd p))) m).
    { destruct m as [|[k x] m]; [split; [constructor|intros _; apply dumps_text]|].
      cbn [dump]. change (fix els m := match m with [] => DText [] | (k', y) :: m' => dapp (DText [44]) (dapp (dstr k') (dapp (DText [58]) (dapp (dump y) (els m')))) end) with obj_els.
      rewrite !dapp_dumps.
      assert (K : dumps (obj_els m) <-> Forall (fun p => dumps (dstr (fst p)) /\ dumps (dump (snd p))) m).
      { clear. induction m as [|[k' y] m IH]; cbn [obj_els]; [split; [constructor|intros _; apply dumps_text]|].
        rewrite !dapp_dumps, IH. split.
        - intros (_ & H1 & _ & H2 & H3). constructor; [split; assumption|assumption].
        - intros H. inversion_clear H as [|? ? [H1 H2] H3]. split; [apply dumps_text|]. split; [assumption|]. split; [apply dumps_text|]. now split. }
      rewrite K. split.
      - intros (_ & H1 & _ & H2 & H3 & _). constructor; [split; assumption|assumption].
      - intros H. inversion_clear H as [|? ? [H1 H2] H3]. split; [apply dumps_text|]. split; [assumption|]. split; [apply dumps_text|].
        split; [assumption|]. split; [assumption|apply dumps_text]. }
    rewrite E. clear E. cbn [no_float] in NF.
    assert (NF' : Forall (fun p => no_float (snd p)) m) by (clear -NF; induction m as [|[k x] m IHl]; [constructor|]; destruct NF; constructor; auto).
    rewrite Forall_forall in *. split.
    + intros H s K. inversion K as [| |? x Hx|? k x Hx Kx]; subst.
      * apply dstr_dumps; [apply B; exact K|]. apply (H _ Hx).
      * refine (proj1 (IH _ Hx (NF' _ Hx) _) (proj2 (H _ Hx)) s Kx). intros s' K'. apply B. eapply ti_obj; eassumption.
    + intros H [k x] Hx. cbn [fst snd]. split.
      * apply dstr_dumps; [apply B; eapply ti_key; exact Hx|]. apply H. eapply ti_key; exact Hx.
      * refine (proj2 (IH _ Hx (NF' _ Hx) _) _).
        -- intros s' K'. apply B. eapply ti_obj; eassumption.
        -- intros s' K'. apply H. eapply ti_obj; eassumption.
Qed.
Lemma dump_no_float : forall j, no_float j -> dump j <> DFloat.
Proof.
  assert (A : forall a b, a <> DFloat -> b <> DFloat -> dapp a b <> DFloat) by (intros [] [] H1 H2; cbn [dapp]; easy).
  assert (S : forall s, dstr s <> DFloat) by (intros s; unfold dstr; destruct (dump_escaped s); easy).
  apply (json_ind' (fun j => no_float j -> dump j <> DFloat)); try easy.
  - intros [] _; easy.
  - intros s _. apply S.
  - intros l IH NF. cbn [no_float] in NF.
    assert (NF' : Forall (fun x => dump x <> DFloat) l).
    { clear -NF IH. induction l as [|x l IHl]; [constructor|]. destruct NF. inversion_clear IH. constructor; auto. }
    destruct l as [|x l]; [easy|]. cbn [dump]. inversion_clear NF' as [|? ? H1 H2].
    apply A; [discriminate|]. apply A; [exact H1|]. apply A; [|discriminate].
    clear -H2 A. induction H2; [easy|]. apply A; [discriminate|]. now apply A.
  - intros m IH NF. cbn [no_float] in NF.
    assert (NF' : Forall (fun p => dump (snd p) <> DFloat) m).
    { clear -NF IH. induction m as [|[k x] m IHl]; [constructor|]. destruct NF. inversion_clear IH. constructor; auto. }
    destruct m as [|[k x] m]; [easy|]. cbn [dump]. inversion_clear NF' as [|? ? H1 H2].
    apply A; [discriminate|]. apply A; [apply S|]. apply A; [discriminate|]. apply A; [exact H1|]. apply A; [|easy].
    clear -H2 A S. induction H2 as [|[k y] m H H2 IH]; [easy|]. apply A; [discriminate|]. apply A; [apply S|]. apply A; [discriminate|]. now apply A.
Qed.
(** Writing throws exactly if some text in the value is not UTF-8. *)
Theorem C68_throws_iff j : no_float j -> texts_ok j ->
  (dump j = DThrow <-> exists s, text_in s j /\ ~ wf8 s).
Proof.
  intros NF B. pose proof (dumps_iff j NF B) as K. pose proof (dump_no_float j NF) as F. split.
  - intros E. destruct (dump j); try discriminate.
    assert (X : ~ forall s, text_in s j -> wf8 s) by (intros H; apply K in H as [t H]; discriminate).
    clear -X NF B. revert NF B X. pattern j. apply json_ind'; clear j.
    + intros _ _ X. exfalso. apply X. intros s K. inversion K.
    + intros b _ _ X. exfalso. apply X. intros s K. inversion K.
    + intros b _ _ X. exfalso. apply X. intros s K. inversion K.
    + intros b _ _ X. exfalso. apply X. intros s K. inversion K.
    + easy.
    + intros s _ B X. exists s. split; [constructor|]. intros W. apply X. intros s' K. inversion K. now subst.
    + intros l IH NF B X. cbn [no_float] in NF.
      induction l as [|x l IHl]; [exfalso; apply X; intros s K; inversion K; easy|].
      destruct NF as [N1 N2]. inversion_clear IH as [|? ? I1 I2].
      assert (B1 : texts_ok x) by (intros s K; apply B; eapply ti_arr; [now left|exact K]).
      assert (B2 : texts_ok (JArr l)).
      { intros s K. apply B. inversion K; subst. eapply ti_arr; [right; eassumption|eassumption]. }
      pose proof (dumps_iff x N1 B1) as D1.
      assert (DD : dumps (dump x) \/ ~ dumps (dump x)) by (unfold dumps; destruct (dump x); [left; eauto|right; intros [? ?]; discriminate|right; intros [? ?]; discriminate]).
      destruct DD as [D|D].
      * destruct (IHl I2 N2 B2) as (s & K & W).
        { intros H. apply X. intros s K. inversion K as [|? y Hy Ky| |]; subst. destruct Hy as [<-|Hy].
          - now apply D1.
          - apply H. eapply ti_arr; eassumption. }
        exists s. split; [|exact W]. inversion K; subst. eapply ti_arr; [right; eassumption|eassumption].
      * destruct (I1 N1 B1) as (s & K & W).
        { intros H. apply D. now apply D1. }
        exists s. split; [|exact W]. eapply ti_arr; [now left|exact K].
    + intros m IH NF B X. cbn [no_float] in NF.
      induction m as [|[k x] m IHl]; [exfalso; apply X; intros s K; inversion K; easy|].
      destruct NF as [N1 N2]. inversion_clear IH as [|? ? I1 I2]. cbn [snd] in I1.
      assert (B0 : bytes_ok k) by (apply B; eapply ti_key; now left).
      assert (B1 : texts_ok x) by (intros s K; apply B; eapply ti_obj; [now left|exact K]).
      assert (B2 : texts_ok (JObj m)).
      { intros s K. apply B. inversion K; subst; [eapply ti_key; right; eassumption|eapply ti_obj; [right; eassumption|eassumption]]. }
      pose proof (dumps_iff x N1 B1) as D1. pose proof (dstr_dumps k B0) as D0.
      assert (DD : dumps (dump x) \/ ~ dumps (dump x)) by (unfold dumps; destruct (dump x); [left; eauto|right; intros [? ?]; discriminate|right; intros [? ?]; discriminate]).
      assert (DK : dumps (dstr k) \/ ~ dumps (dstr k)) by (unfold dumps; destruct (dstr k); [left; eauto|right; intros [? ?]; discriminate|right; intros [? ?]; discriminate]).
      destruct DK as [DK|DK]; [|exists k; split; [eapply ti_key; now left|now rewrite <- D0]].
      destruct DD as [D|D].
      * destruct (IHl I2 N2 B2) as (s & K & W).
        { intros H. apply X. intros s K. inversion K as [| |? y Hy|? k' y Hy Ky]; subst.
          - destruct Hy as [[= <- <-]|Hy]; [now apply D0|]. apply H. eapply ti_key; eassumption.
          - destruct Hy as [[= <- <-]|Hy]; [now apply D1|]. apply H. eapply ti_obj; eassumption. }
        exists s. split; [|exact W]. inversion K; subst; [eapply ti_key; right; eassumption|eapply ti_obj; [right; eassumption|eassumption]].
      * destruct (I1 N1 B1) as (s & K & W).
        { intros H. apply D. now apply D1. }
        exists s. split; [|exact W]. eapply ti_obj; [now left|exact K].
  - intros (s & H & W). destruct (dump j) eqn:E; [|reflexivity|easy].
    exfalso. apply W. refine (proj1 K _ s H). now exists t.
Qed.
Example C68_throws_ex : dump (JObj [(T"a", JArr [JStr [195]])]) = DThrow. Proof. vm_compute. reflexivity. Qed.

(** ** What parsing yields *)
Fixpoint jok (j : json) : Prop :=
  match j with
  | JNull | JBool _ | JFloat _ _ => True
  | JInt z => (- 2 ^ 63 <= z <= 0)%Z
  | JUns n => n < 2 ^ 64
  | JStr s => wf8 s
  | JArr l => (fix all l := match l with [] => True | x :: r => jok x /\ all r end) l
  | JObj m => StronglySorted key_lt m /\ (fix all m := match m with [] => True | (k, x) :: r => wf8 k /\ jok x /\ all r end) m
  end.
Definition obj_ok (m : list (list N * json)) : Prop := StronglySorted key_lt m /\ Forall (fun p => wf8 (fst p) /\ jok (snd p)) m.
Lemma jok_arr l : jok (JArr l) <-> Forall jok l.
Proof.
  cbn [jok]. induction l as [|x l IH]; [split; auto|]. split.
  - intros [H1 H2]. constructor; [exact H1|]. now apply IH.
  - intros H. inversion_clear H. split; [assumption|]. now apply IH.
Qed.
Lemma jok_obj m : jok (JObj m) <-> obj_ok m.
Proof.
  unfold obj_ok. cbn [jok]. split; intros [H0 H]; (split; [exact H0|]); clear H0; induction m as [|[k x] m IH]; auto.
  - destruct H as (H1 & H2 & H3). constructor; [split; assumption|]. now apply IH.
  - inversion_clear H as [|? ? [H1 H2] H3]. split; [exact H1|]. split; [exact H2|]. now apply IH.
Qed.
Lemma obj_set_in m k v p : In p (obj_set m k v) -> p = (k, v) \/ In p m.
Proof.
  induction m as [|[k' v'] m IH]; cbn [obj_set]; [intros [<-|[]]; auto|].
  destruct (str_eqb k k') eqn:E.
  - apply str_eqb_iff in E. subst. intros [<-|H]; [auto|]. right. now right.
  - destruct (str_ltb k k'); intros [<-|H]; auto.
    + right. now left.
    + destruct (IH H); auto. right. now right.
Qed.
Lemma obj_set_ok m k v : obj_ok m -> wf8 k -> jok v -> obj_ok (obj_set m k v).
Proof.
  intros [S F] Wk Wv. split.
  - clear F. induction m as [|[k' v'] m IH]; cbn [obj_set]; [repeat constructor|].
    inversion_clear S as [|? ? S' H]. destruct (str_eqb k k') eqn:E.
    + constructor; [exact S'|]. exact H.
    + destruct (str_ltb k k') eqn:E2.
      * constructor; [now constructor|]. constructor; [exact E2|].
        apply Forall_forall. intros p Hp. rewrite Forall_forall in H. specialize (H p Hp). unfold key_lt in *. cbn [fst] in *.
        eapply str_ltb_trans; eassumption.
      * constructor; [now apply IH|]. apply Forall_forall. intros p Hp. apply obj_set_in in Hp as [->|Hp].
        -- unfold key_lt. cbn [fst]. now apply str_total.
        -- rewrite Forall_forall in H. now apply H.
  - apply Forall_forall. intros p Hp. apply obj_set_in in Hp as [->|Hp]; [now split|]. rewrite Forall_forall in F. now apply F.
Qed.

Lemma lor_small k x : x < 256 -> k < 256 -> (k =? 192) && (x <? 32) || (k =? 128) && (x <? 64) || (k =? 224) && (x <? 16) || (k =? 240) && (x <? 8) = true ->
  N.lor k x = k + x.
Proof.
  intros H Hk E. assert (D : k = 192 \/ k = 128 \/ k = 224 \/ k = 240) by lia. apply N.eqb_eq.
  assert (K : forall k, (k = 192 \/ k = 128 \/ k = 224 \/ k = 240) ->
    forallb (fun x => implb ((k =? 192) && (x <? 32) || (k =? 128) && (x <? 64) || (k =? 224) && (x <? 16) || (k =? 240) && (x <? 8)) (N.lor k x =? k + x)) (map N.of_nat (seq 0 256)) = true).
  { intros ? [-> | [-> | [-> | ->]]]; vm_compute; reflexivity. }
  pose proof (byte_all _ (K k D) x H) as Q. cbv beta in Q. now rewrite E in Q.
Qed.
Lemma put_cp_enc c : c < 1114112 -> put_cp c = enc8_1 c.
Proof.
  intros H. unfold put_cp, enc8_1. rewrite !N.shiftr_div_pow2, !land63.
  change (2 ^ 6) with 64. change (2 ^ 12) with 4096. change (2 ^ 18) with 262144.
  destruct (c <? 128) eqn:E1; [reflexivity|]. destruct (c <=? 2047) eqn:E2.
  { replace (c <? 2048) with true by lia. now rewrite !lor_small by lia. }
  replace (c <? 2048) with false by lia. destruct (c <=? 65535) eqn:E3.
  { replace (c <? 65536) with true by lia. now rewrite !lor_small by lia. }
  replace (c <? 65536) with false by lia. now rewrite !lor_small by lia.
Qed.
Lemma hex_digit_lt c d : hex_digit c = Some d -> d < 16.
Proof. unfold hex_digit. repeat match goal with |- (if ?g then _ else _) = _ -> _ => destruct g eqn:? end; try discriminate; intros [= <-]; lia. Qed.
Lemma codepoint_lt b c r : get_codepoint b = Some (c, r) -> c < 65536.
Proof.
  unfold get_codepoint. destruct b as [|a1 [|a2 [|a3 [|a4 b]]]]; try discriminate.
  destruct (hex_digit a1) eqn:E1, (hex_digit a2) eqn:E2, (hex_digit a3) eqn:E3, (hex_digit a4) eqn:E4; try discriminate. intros [= <- <-].
  apply hex_digit_lt in E1, E2, E3, E4. rewrite !N.shiftl_mul_pow2. change (2 ^ 12) with 4096. change (2 ^ 8) with 256. change (2 ^ 4) with 16. lia.
Qed.
Lemma wf8_nil : wf8 []. Proof. exists []. split; [constructor|reflexivity]. Qed.
Lemma wf8_app a b : wf8 a -> wf8 b -> wf8 (a ++ b).
Proof.
  intros (x & F & ->) (y & G & ->). exists (x ++ y). split; [now apply Forall_app|]. now rewrite enc8_app.
Qed.
Lemma wf8_one c : scalar c -> wf8 (enc8_1 c).
Proof. intros H. exists [c]. split; [now constructor|]. cbn [enc8 flat_map]. now rewrite app_nil_r. Qed.
Lemma wf8_ascii c : c < 128 -> wf8 [c].
Proof. intros H. exists [c]. split; [constructor; [left; lia|constructor]|]. symmetry. apply enc8_ascii. now constructor. Qed.
Lemma scan_u_wf b s r : scan_u b = Some (s, r) -> wf8 s.
Proof.
  unfold scan_u. destruct (get_codepoint b) as [[c1 r1]|] eqn:E; [|discriminate]. apply codepoint_lt in E.
  destruct ((55296 <=? c1) && (c1 <=? 56319)) eqn:E1.
  - destruct r1 as [|x [|y r2]]; try discriminate. destruct ((x =? 92) && (y =? 117)); [|discriminate].
    destruct (get_codepoint r2) as [[c2 r3]|] eqn:E2; [|discriminate]. apply codepoint_lt in E2.
    destruct ((56320 <=? c2) && (c2 <=? 57343)) eqn:E3; [|discriminate]. intros [= <- <-].
    rewrite N.shiftl_mul_pow2. change (2 ^ 10) with 1024. rewrite put_cp_enc by lia. apply wf8_one. unfold scalar. lia.
  - destruct ((56320 <=? c1) && (c1 <=? 57343)) eqn:E3; [discriminate|]. intros [= <- <-]. rewrite put_cp_enc by lia. apply wf8_one. unfold scalar. lia.
Qed.
Lemma escape_wf b s r : scan_escape b = Some (s, r) -> wf8 s.
Proof.
  unfold scan_escape. destruct b as [|c b]; [discriminate|].
  repeat match goal with |- (if ?g then _ else _) = _ -> _ => destruct g end; try discriminate;
    try (intros [= <- <-]; apply wf8_ascii; lia).
  apply scan_u_wf.
Qed.
Lemma in_ranges_inv : forall rs b s r, in_ranges b rs = Some (s, r) ->
  match rs with
  | [] => s = []
  | (lo, hi) :: rs' => exists x b' s', s = x :: s' /\ lo <= x <= hi /\ in_ranges b' rs' = Some (s', r)
  end.
Proof.
  intros [|[lo hi] rs] b s r E; cbn [in_ranges] in E; [now injection E as <- <-|].
  destruct b as [|c b]; [discriminate|]. destruct ((lo <=? c) && (c <=? hi)) eqn:Q; [|discriminate].
  destruct (in_ranges b rs) as [[a r']|] eqn:E1; [|discriminate]. injection E as <- <-.
  exists c, b, a. split; [reflexivity|]. split; [lia|exact E1].
Qed.
Lemma lead_wf c rs b s r : lead_ranges c = Some rs -> in_ranges b rs = Some (s, r) -> wf8 (c :: s).
Proof.
  intros E K.
  assert (X : exists w, dec8_1 (c :: s) = Some (w, [])).
  { unfold lead_ranges in E. destruct (c <? 32) eqn:Q0; [discriminate|].
    destruct (c <=? 127) eqn:Q1.
    { injection E as <-. apply in_ranges_inv in K. subst s. unfold dec8_1. replace (c <? 128) with true by lia. eauto. }
    destruct ((194 <=? c) && (c <=? 223)) eqn:Q2.
    { injection E as <-. apply in_ranges_inv in K as (x & b' & s' & -> & R & K). apply in_ranges_inv in K. subst s'.
      unfold dec8_1, cont. replace (c <? 128) with false by lia. replace ((194 <=? c) && (c <? 224)) with true by lia. replace ((128 <=? x) && (x <? 192)) with true by lia. eauto. }
    assert (K3 : forall lo1 hi1, rs = [(lo1, hi1); (128, 191)] -> 224 <= c < 240 -> 128 <= lo1 -> hi1 < 192 ->
       (c = 224 -> 160 <= lo1) -> (c = 237 -> hi1 < 160) -> exists w, dec8_1 (c :: s) = Some (w, @nil N)).
    { intros lo1 hi1 -> Hc L1 L2 C1 C2. apply in_ranges_inv in K as (x & b' & s' & -> & R & K).
      apply in_ranges_inv in K as (y & b2 & s2 & -> & R2 & K). apply in_ranges_inv in K. subst s2.
      unfold dec8_1, cont. replace (c <? 128) with false by lia.
      replace ((194 <=? c) && (c <? 224)) with false by lia. replace ((224 <=? c) && (c <? 240)) with true by lia.
      match goal with |- context [if ?g then _ else _] => replace g with true by lia end. eauto. }
    destruct (c =? 224) eqn:Q3; [injection E as <-; apply (K3 160 191); lia || reflexivity|].
    destruct (((225 <=? c) && (c <=? 236)) || (c =? 238) || (c =? 239)) eqn:Q4; [injection E as <-; apply (K3 128 191); lia || reflexivity|].
    destruct (c =? 237) eqn:Q5; [injection E as <-; apply (K3 128 159); lia || reflexivity|].
    clear K3.
    assert (K4 : forall lo1 hi1, rs = [(lo1, hi1); (128, 191); (128, 191)] -> 240 <= c < 245 -> 128 <= lo1 -> hi1 < 192 ->
       (c = 240 -> 144 <= lo1) -> (c = 244 -> hi1 < 144) -> exists w, dec8_1 (c :: s) = Some (w, @nil N)).
    { intros lo1 hi1 -> Hc L1 L2 C1 C2. apply in_ranges_inv in K as (x & b' & s' & -> & R & K).
      apply in_ranges_inv in K as (y & b2 & s2 & -> & R2 & K). apply in_ranges_inv in K as (z & b3 & s3 & -> & R3 & K).
      apply in_ranges_inv in K. subst s3. unfold dec8_1, cont. replace (c <? 128) with false by lia.
      replace ((194 <=? c) && (c <? 224)) with false by lia. replace ((224 <=? c) && (c <? 240)) with false by lia.
      replace ((240 <=? c) && (c <? 245)) with true by lia.
      match goal with |- context [if ?g then _ else _] => replace g with true by lia end. eauto. }
    destruct (c =? 240) eqn:Q6; [injection E as <-; apply (K4 144 191); lia || reflexivity|].
    destruct ((241 <=? c) && (c <=? 243)) eqn:Q7; [injection E as <-; apply (K4 128 191); lia || reflexivity|].
    destruct (c =? 244) eqn:Q8; [injection E as <-; apply (K4 128 143); lia || reflexivity|]. discriminate. }
  destruct X as [w X]. apply dec8_1_inv in X as [Hs X]. rewrite X, app_nil_r. now apply wf8_one.
Qed.
Lemma ssl_wf : forall f b acc s r, wf8 acc -> scan_string_loop f b acc = Some (s, r) -> wf8 s.
Proof.
  induction f as [|f IH]; intros b acc s r W E; [discriminate|]. destruct b as [|c b]; [discriminate|].
  rewrite ssl_step in E. destruct (c =? 34); [now injection E as <- <-|]. destruct (c =? 92).
  - destruct (scan_escape b) as [[x r']|] eqn:E1; [|discriminate]. apply escape_wf in E1. eapply IH; [|exact E]. now apply wf8_app.
  - destruct (lead_ranges c) as [rs|] eqn:E0; [|discriminate]. destruct (in_ranges b rs) as [[x r']|] eqn:E1; [|discriminate].
    pose proof (lead_wf _ _ _ _ _ E0 E1). eapply IH; [|exact E]. now apply wf8_app.
Qed.
Definition tok_ok (t : token) : Prop :=
  match t with TStr s => wf8 s | TUns n => n < 2 ^ 64 | TInt z => (- 2 ^ 63 <= z <= 0)%Z | _ => True end.
Lemma literal_ok : forall lit b t t' r, tok_ok t -> scan_literal b lit t = (t', r) -> tok_ok t'.
Proof.
  induction lit as [|l lit IH]; intros b t t' r H E; cbn [scan_literal] in E; [now injection E as <- <-|].
  destruct b as [|c b]; [now injection E as <- <-|]. destruct (c =? l); [eapply IH; eassumption|now injection E as <- <-].
Qed.
Lemma float_ok neg i f e : tok_ok (float_token neg i f e).
Proof. unfold float_token. destruct (dec_float _ _); exact I. Qed.
Lemma number_ok b t r : scan_number b = (t, r) -> tok_ok t.
Proof.
  unfold scan_number.
  destruct (match b with c :: r0 => if c =? 45 then (true, r0) else (false, b) | [] => (false, b) end) as [neg b1].
  destruct (scan_int_part b1) as [[i b2]|]; [|now intros [= <- <-]].
  destruct (scan_frac b2) as [[f b3]|]; [|now intros [= <- <-]].
  destruct (scan_exp b3) as [[e b4]|]; [|now intros [= <- <-]].
  destruct f; [intros [= <- <-]; apply float_ok|]. destruct e; [intros [= <- <-]; apply float_ok|].
  destruct neg.
  - destruct (dval i <=? 2 ^ 63) eqn:E; intros [= <- <-]; [cbn [tok_ok]; lia|apply float_ok].
  - destruct (dval i <? 2 ^ 64) eqn:E; intros [= <- <-]; [cbn [tok_ok]; lia|apply float_ok].
Qed.
Lemma scan_ok b t r : scan b = (t, r) -> tok_ok t.
Proof.
  unfold scan. intros E. destruct (skip b) as [[|c r0]|]; try (now injection E as <- <-).
  repeat match type of E with (if ?g then _ else _) = _ => destruct g end; try (now injection E as <- <-);
    try (eapply literal_ok; [|exact E]; exact I).
  - unfold scan_string in E. destruct (scan_string_loop _ r0 []) as [[s r']|] eqn:E2; injection E as <- <-; [|exact I].
    cbn [tok_ok]. eapply ssl_wf; [apply wf8_nil|exact E2].
  - eapply number_ok; exact E.
Qed.
Definition frame_ok (f : frame) : Prop := match f with FArr l => Forall jok l | FObj m k => obj_ok m /\ wf8 k end.
Definition st_ok (s : pstate) : Prop :=
  match s with SValue t _ st => tok_ok t /\ Forall frame_ok st | SAfter v _ st => jok v /\ Forall frame_ok st end.
Lemma key_ok t b m st s : tok_ok t -> obj_ok m -> Forall frame_ok st -> parse_key t b m st = inl s -> st_ok s.
Proof.
  intros Ht Hm Hs. unfold parse_key. destruct t; try discriminate. destruct (scan b) as [t1 b1]. destruct t1; try discriminate.
  destruct (scan b1) as [t2 b2] eqn:E. apply scan_ok in E. intros [= <-]. split; [exact E|]. constructor; [|exact Hs]. now split.
Qed.
Lemma obj_ok_nil : obj_ok []. Proof. split; constructor. Qed.
Lemma pstep_ok s s' : st_ok s -> pstep s = inl s' -> st_ok s'.
Proof.
  destruct s as [t b st|v b st]; cbn [st_ok pstep]; intros [H1 H2].
  - destruct t; try discriminate; try (intros [= <-]; split; [exact H1 || exact I|exact H2]).
    + destruct (scan b) as [t1 b1] eqn:E. apply scan_ok in E.
      destruct t1; try (intros [= <-]; split; [exact E || exact I|constructor; [constructor|exact H2]]).
      intros [= <-]. split; [exact I|exact H2].
    + destruct (scan b) as [t1 b1] eqn:E. apply scan_ok in E.
      destruct t1; try (intros K; eapply key_ok; [| | |exact K]; [exact E|apply obj_ok_nil|exact H2]).
      intros [= <-]. split; [apply jok_obj, obj_ok_nil|exact H2].
  - destruct st as [|[l|m k] st']; [discriminate| |]; inversion_clear H2 as [|? ? F H3]; cbn [frame_ok] in F.
    + assert (A : Forall jok (l ++ [v])) by (apply Forall_app; split; [exact F|now constructor]).
      destruct (scan b) as [t1 b1]. destruct t1; try discriminate.
      * intros [= <-]. split; [now apply jok_arr|exact H3].
      * destruct (scan b1) as [t2 b2] eqn:E2. apply scan_ok in E2. intros [= <-]. split; [exact E2|]. now constructor.
    + destruct F as [F W]. assert (A : obj_ok (obj_set m k v)) by now apply obj_set_ok.
      destruct (scan b) as [t1 b1]. destruct t1; try discriminate.
      * intros [= <-]. split; [now apply jok_obj|exact H3].
      * destruct (scan b1) as [t2 b2] eqn:E2. apply scan_ok in E2. intros K. eapply key_ok; eassumption.
Qed.
Lemma pstep_done s v r : st_ok s -> pstep s = inr (PDone v r) -> jok v.
Proof.
  assert (KK : forall t b m st, parse_key t b m st <> inr (PDone v r)).
  { intros t b m st. unfold parse_key. destruct t; try discriminate. destruct (scan b) as [t1 b1]. destruct t1; try discriminate. destruct (scan b1); discriminate. }
  destruct s as [t b st|v' b st]; cbn [st_ok pstep]; intros [H1 H2].
  - destruct t; try discriminate; destruct (scan b) as [t1 b1]; destruct t1; try discriminate; intros K; now apply KK in K.
  - destruct st as [|[l|m k] st']; [now intros [= <- <-]| |]; destruct (scan b) as [t1 b1]; destruct t1; try discriminate;
      destruct (scan b1) as [t2 b2]; try discriminate. intros K. now apply KK in K.
Qed.
Lemma prun_ok : forall f s v r, st_ok s -> prun f s = PDone v r -> jok v.
Proof.
  induction f as [|f IH]; intros s v r H E; [discriminate|]. cbn [prun] in E. destruct (pstep s) as [s'|] eqn:E1.
  - eapply IH; [|exact E]. eapply pstep_ok; eassumption.
  - subst. eapply pstep_done; eassumption.
Qed.
(** Whatever the bytes, a document that is accepted carries only UTF-8 text, 64-bit numbers, and
    objects with different keys. *)
Theorem C68_accepted_ok b j : parse b = Some j -> jok j.
Proof.
  unfold parse, parse_run. destruct (skip_bom b) as [b0|]; [|discriminate].
  destruct (scan b0) as [t b1] eqn:E. destruct (prun _ _) as [v r| |] eqn:E2; try discriminate.
  destruct (scan r) as [t' r']. destruct t'; try discriminate. intros [= <-].
  eapply prun_ok; [|exact E2]. split; [now apply scan_ok in E|constructor].
Qed.
Example C68_accepted_ex : parse (T"{""k"":[1.5,""" ++ [195; 164] ++ T"""]}") <> None /\ parse (T"{""k"":[1.5,""" ++ [195] ++ T"""]}") = None.
Proof. vm_compute. split; [discriminate|reflexivity]. Qed.
(** Parsing always ends: the bound on the number of parser steps is never reached. *)
Theorem C68_ends b : parse_run b <> PFuel.
Proof. apply parse_fuel. Qed.
(** A number of 64 bits written by one side as a negative zero, or a duplicate key: the text is accepted but
    is not what [dump] writes. *)
Example C68_dup_ex : parse (T"{""a"":1,""a"":-0}") = Some (JObj [(T"a", JInt 0)]) /\ dump (JObj [(T"a", JInt 0)]) = DText (T"{""a"":0}").
Proof. vm_compute. split; reflexivity. Qed.

Print Assumptions C68_round_trip.
Print Assumptions C68_throws_iff.
Print Assumptions C68_accepted_ok.
Print Assumptions C68_ends.
