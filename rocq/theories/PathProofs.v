(** Lemmas for PathProps. *)
From Coq Require Import String List NArith ZArith Lia Bool.
From Coq Require Import ZifyN ZifyNat ZifyBool.
From Verif Require Import Bytes BytesProofs Txt UtfSpec StringModel StringSpec StringProofs PathModel PathSpec.
Import ListNotations.
Open Scope N_scope.
Ltac Zify.zify_post_hook ::= Z.div_mod_to_equations.

(** ** Replacement *)
Lemma repl_ok s old new : old <> [] -> Repl (fun x => x) old new s (repl s old new).
Proof.
  intros H. unfold repl, replace.
  destruct (replace_loop_ok old new H (S (List.length s)) [] s ltac:(lia)) as (r & E & R).
  cbn [app] in E. change (nlen (@nil N)) with 0 in E. rewrite E. exact R.
Qed.
Lemma Repl_forall (P : N -> Prop) old new s r : Repl (fun x => x) old new s r ->
  Forall P s -> Forall P new -> Forall P r.
Proof.
  intros R. induction R as [s H|a m b r Hm Hp R IH]; intros Fs Fn; [assumption|].
  apply Forall_app in Fs as (Fa & Fs). apply Forall_app in Fs as (Fm & Fb).
  apply Forall_app. split; [assumption|]. apply Forall_app. split; [assumption|]. now apply IH.
Qed.
Lemma Repl_same_or_in c old new s r : Repl (fun x => x) old (c :: new) s r -> r = s \/ In c r.
Proof.
  intros R. destruct R as [s H|a m b r Hm Hp R]; [now left|right]. apply in_or_app. right. now left.
Qed.
Lemma occ_head c old s p : occ (fun x => x) (c :: old) s p -> In c s.
Proof.
  intros (a & m & b & E & _ & Em). rewrite !map_id in Em. subst. apply in_or_app. right. now left.
Qed.
Lemma repl_id c old new s : ~ In c s -> repl s (c :: old) new = s.
Proof.
  intros H. generalize (repl_ok s (c :: old) new ltac:(discriminate)). generalize (repl s (c :: old) new) as t.
  intros t R. destruct R as [s Hn|a m b r Hm Hp R]; [reflexivity|]. exfalso. apply H.
  rewrite !map_id in Hm. subst m. apply in_or_app. right. now left.
Qed.
Lemma repl_inv c old new s t : old <> [] -> repl s old (c :: new) = t -> ~ In c t -> s = t.
Proof.
  intros Ho E H. destruct (Repl_same_or_in _ _ _ _ _ (repl_ok s old (c :: new) Ho)) as [K|K]; congruence.
Qed.
Lemma repl_single s c new : repl s [c] new = flat_map (fun x => if x =? c then new else [x]) s.
Proof.
  pose proof (repl_ok s [c] new ltac:(discriminate)) as R. revert R. generalize (repl s [c] new) as t. intros t R.
  assert (NO : forall a t : list N, (forall p, p < nlen a -> ~ occ (fun x => x) [c] (a ++ t) p) ->
    flat_map (fun x => if x =? c then new else [x]) a = a).
  { induction a as [|x a IH]; intros u H; [reflexivity|]. cbn [flat_map].
    replace (x =? c) with false.
    - cbn [app]. f_equal. apply (IH u). intros p Hp (b & m & d & E1 & E2 & E3).
      apply (H (p + 1)); [rewrite nlen_cons; lia|]. exists (x :: b), m, d. cbn [app]. rewrite E1, nlen_cons.
      repeat split; [lia|assumption].
    - symmetry. apply N.eqb_neq. intros ->. apply (H 0); [rewrite nlen_cons; lia|]. exists [], [c], (a ++ u). auto. }
  induction R as [s H|a m b r Hm Hp R IH].
  - symmetry. apply (NO s []). intros p _. rewrite app_nil_r. apply H.
  - rewrite !map_id in Hm. subst m. rewrite !flat_map_app. cbn [flat_map]. rewrite N.eqb_refl, app_nil_r, <- IH.
    now rewrite (NO a ([c] ++ b)).
Qed.

(** ** Well-formed text *)
Definition surrogate (c : N) : Prop := 55296 <= c /\ c <= 57343.
Lemma wf16_nil : wf16 []. Proof. exists []. split; [constructor|reflexivity]. Qed.
Lemma wf16_app a b : wf16 a -> wf16 b -> wf16 (a ++ b).
Proof.
  intros (x & Fx & ->) (y & Fy & ->). exists (x ++ y). split; [now apply Forall_app|].
  unfold enc16. now rewrite flat_map_app.
Qed.
Lemma wf16_ascii s : Forall (fun c => c < 55296) s -> wf16 s.
Proof.
  intros F. exists s. split.
  - eapply Forall_impl; [|exact F]. intros c H. now left.
  - unfold enc16. induction F as [|c s Hc F IH]; [reflexivity|]. cbn [flat_map]. rewrite <- IH. unfold enc16_1.
    replace (c <? 65536) with true by lia. reflexivity.
Qed.
Lemma wf16_cut c : ~ surrogate c -> forall a b, wf16 (a ++ c :: b) -> wf16 a /\ wf16 b.
Proof.
  intros Hc a b (cs & F & E). revert a E. induction F as [|x cs Hx F IH]; intros a E.
  { destruct a; discriminate. }
  cbn [enc16 flat_map] in E. fold (enc16 cs) in E. unfold enc16_1 in E.
  destruct (x <? 65536) eqn:Ex.
  - cbn [app] in E. destruct a as [|y a]; cbn [app] in E; inversion E as [[E1 E2]].
    + split; [apply wf16_nil|]. exists cs. auto.
    + destruct (IH a E2) as (W1 & W2). split; [|assumption]. change (x :: a) with ([x] ++ a).
      apply wf16_app; [|assumption]. exists [x]. split; [auto|]. cbn. unfold enc16_1. now rewrite Ex.
  - cbn [app] in E. unfold surrogate, scalar in *.
    remember (55296 + (x - 65536) / 1024) as hi eqn:Eh in E. remember (56320 + (x - 65536) mod 1024) as lo eqn:El in E.
    destruct a as [|y a]; cbn [app] in E; injection E as E1 E2; [exfalso; lia|].
    destruct a as [|z a]; cbn [app] in E2; injection E2 as E3 E4; [exfalso; lia|]. subst y z.
    destruct (IH a E4) as (W1 & W2). split; [|assumption].
    change (hi :: lo :: a) with ([hi; lo] ++ a).
    apply wf16_app; [|assumption]. exists [x]. split; [auto|]. subst hi lo. cbn [enc16 flat_map]. unfold enc16_1.
    now rewrite Ex, app_nil_r.
Qed.
Lemma wf16_cut_list m : m <> [] -> Forall (fun c => ~ surrogate c) m -> forall a b,
  wf16 (a ++ m ++ b) -> wf16 a /\ wf16 b.
Proof.
  intros Hm F. induction F as [|c m Hc F IH]; intros a b W; [congruence|].
  destruct (wf16_cut c Hc a (m ++ b) W) as (W1 & W2). split; [assumption|].
  destruct m as [|d m]; [assumption|]. destruct (IH ltac:(discriminate) [] b W2). assumption.
Qed.
Lemma repl_wf s old new : old <> [] -> Forall (fun c => ~ surrogate c) old -> wf16 new -> wf16 s ->
  wf16 (repl s old new).
Proof.
  intros Ho Fo Wn. generalize (repl_ok s old new Ho). generalize (repl s old new) as r. intros r R.
  induction R as [s H|a m b r Hm Hp R IH]; intros W; [assumption|]. rewrite !map_id in Hm. subst m.
  destruct (wf16_cut_list old Ho Fo a b W) as (W1 & W2). auto using wf16_app.
Qed.
Lemma wf16_trim s : wf16 s -> trim_invalid s = s.
Proof.
  intros (cs & F & ->). unfold trim_invalid.
  assert (E : trim_left_invalid (enc16 cs) = enc16 cs).
  { destruct F as [|c cs Hc F]; [reflexivity|]. cbn [enc16 flat_map]. unfold enc16_1, scalar in *.
    destruct (c <? 65536) eqn:Ec; cbn [app trim_left_invalid].
    - replace (_ && _) with false by lia. reflexivity.
    - replace (_ && _) with false by lia. reflexivity. }
  rewrite E. clear E. destruct cs as [|c cs] using rev_ind; [reflexivity|]. clear IHcs.
  apply Forall_app in F as (_ & F). inversion_clear F as [|? ? Hc _].
  unfold enc16. rewrite flat_map_app. cbn [flat_map]. rewrite app_nil_r. unfold enc16_1, scalar in *.
  unfold trim_right_invalid. destruct (c <? 65536) eqn:Ec.
  - rewrite last_last. replace (_ && _) with false by lia. destruct (_ ++ _); reflexivity.
  - match goal with |- context [_ ++ [?u; ?v]] => change [u; v] with ([u] ++ [v]) end.
    rewrite app_assoc, last_last. replace (_ && _) with false by lia.
    match goal with |- match ?x with [] => _ | _ => _ end = _ => destruct x; reflexivity end.
Qed.
Lemma trim_right_length t : (List.length (trim_right_invalid t) <= List.length t)%nat.
Proof.
  unfold trim_right_invalid. destruct t as [|d t]; [cbn; lia|].
  destruct ((55296 <=? last (d :: t) 0) && (last (d :: t) 0 <=? 56319)); [|lia].
  pose proof (f_equal (@List.length N) (app_removelast_last 0 (l := d :: t) ltac:(discriminate))) as L.
  rewrite app_length in L. lia.
Qed.
Lemma wf16_trim_right s : wf16 s -> trim_right_invalid s = s.
Proof.
  intros W. pose proof (wf16_trim s W) as E. unfold trim_invalid in E.
  assert (L : trim_left_invalid s = s).
  { destruct s as [|c s]; [reflexivity|]. cbn [trim_left_invalid] in *. destruct (_ && _) eqn:K; [|reflexivity].
    exfalso. pose proof (trim_right_length s) as H. rewrite E in H. cbn [List.length] in H. lia. }
  now rewrite L in E.
Qed.

(** ** Encoding and decoding a name *)
Lemma not_in_forall (c : N) s : ~ In c s <-> Forall (fun x => x <> c) s.
Proof.
  rewrite Forall_forall. split; [intros H x Hx ->; contradiction|intros H K; exact (H c K eq_refl)].
Qed.
Ltac fsolve := repeat (apply Forall_cons; [lia || (unfold surrogate; lia)|]); apply Forall_nil.
Lemma repl_notin d s c old new : ~ In d s -> ~ In d new -> ~ In d (repl s (c :: old) new).
Proof.
  rewrite !not_in_forall. intros Fs Fn.
  exact (Repl_forall _ _ _ _ _ (repl_ok s (c :: old) new ltac:(discriminate)) Fs Fn).
Qed.
Definition enc (p : list N) : list N := validate_name (repl p [58] [47]).
Definition tame (t : list N) : Prop := Forall (fun c => ~ In c [92; 42; 63; 34; 60; 62; 124; 58]) t.
Lemma tame_notin t c : tame t -> In c [92; 42; 63; 34; 60; 62; 124; 58] -> ~ In c t.
Proof. intros F H K. unfold tame in F. rewrite Forall_forall in F. exact (F c K H). Qed.
Lemma convert_inv s t : tame t -> convert_name s = t -> s = t.
Proof.
  intros Ht E. unfold convert_name in E.
  assert (K : forall c, In c [92; 42; 63; 34; 60; 62; 124; 58] -> ~ In c t) by (intros; now apply tame_notin).
  repeat (apply (repl_inv _ _ []) in E; [|discriminate|apply K; cbn [In]; intuition]). exact E.
Qed.
Lemma convert_noslash s : ~ In 47 s -> ~ In 47 (convert_name s).
Proof.
  intros H. unfold convert_name.
  repeat (apply repl_notin; [|cbn [In]; lia]). exact H.
Qed.
Lemma convert_id s : ~ In 37 s -> convert_name s = s.
Proof.
  intros H. unfold convert_name.
  assert (K : forall l new, repl s (txt (String (Ascii.Ascii true false true false false true false false) l)) new = s).
  { intros l new. unfold txt. cbn [list_ascii_of_string map]. apply (repl_id 37). exact H. }
  now rewrite !K.
Qed.
Lemma convert_wf s : wf16 s -> wf16 (convert_name s).
Proof.
  intros W. unfold convert_name.
  repeat (apply repl_wf; [discriminate|cbn; fsolve|apply wf16_ascii; fsolve|]). exact W.
Qed.
Lemma enc_noslash p : ~ In 47 (enc p).
Proof.
  unfold enc, validate_name. apply repl_notin; [|cbn; lia]. rewrite repl_single. intros H.
  apply in_flat_map in H as (x & _ & H). destruct (x =? 47) eqn:E; cbn in H; lia.
Qed.
Lemma enc_wf p : wf16 p -> wf16 (enc p).
Proof.
  intros W. unfold enc, validate_name.
  repeat (apply repl_wf; [discriminate|fsolve|apply wf16_ascii; cbn; fsolve|]). exact W.
Qed.
Lemma enc_inv p t : ~ In 37 t -> ~ In 47 t -> enc p = t -> p = t.
Proof.
  intros H1 H2 E. unfold enc, validate_name in E.
  change (T"%3A") with (37 :: [51; 65]) in E. change (T"%5C") with (37 :: [53; 67]) in E.
  apply repl_inv in E; [|discriminate|assumption]. apply repl_inv in E; [|discriminate|assumption].
  apply repl_inv in E; [|discriminate|assumption]. exact E.
Qed.
Lemma enc_id p : ~ In 47 p -> ~ In 58 p -> enc p = p.
Proof.
  intros H1 H2. unfold enc, validate_name. rewrite (repl_id 58 [] [47]) by assumption.
  rewrite (repl_id 47) by assumption. now rewrite (repl_id 58).
Qed.
Lemma enc_nil p : enc p = [] -> p = [].
Proof. intros E. now apply enc_inv in E. Qed.
Lemma enc_dotdot p : enc p = dotdot -> p = dotdot.
Proof. apply enc_inv; cbn; lia. Qed.
Lemma convert_nil s : convert_name s = [] -> s = [].
Proof. apply convert_inv. apply Forall_nil. Qed.
Lemma tame_dots : tame dotdot /\ tame dot.
Proof. split; repeat (apply Forall_cons; [cbn; lia|]); apply Forall_nil. Qed.
Lemma plain_enc p : plain p -> enc p = p /\ convert_name p = p.
Proof. intros (W & H1 & H2 & H3 & H4 & H5 & H6). split; [now apply enc_id|now apply convert_id]. Qed.

(** ** Pieces *)
Lemma pieces_ne s : pieces s <> [].
Proof. destruct s as [|c s]; cbn [pieces]; [discriminate|]. destruct (c =? 47); [discriminate|]. destruct (pieces s); discriminate. Qed.
Lemma pieces_join s : join 47 (pieces s) = s ++ [47].
Proof.
  induction s as [|c s IH]; [reflexivity|]. cbn [pieces]. destruct (c =? 47) eqn:E.
  - cbn [join flat_map app]. fold (join 47 (pieces s)). rewrite IH. assert (c = 47) by lia. subst. reflexivity.
  - destruct (pieces s) as [|p ps] eqn:Ep; [now apply pieces_ne in Ep|].
    cbn [join flat_map app] in *. now rewrite IH.
Qed.
Lemma pieces_noslash s : Forall (fun p => ~ In 47 p) (pieces s).
Proof.
  induction s as [|c s IH]; cbn [pieces]; [repeat constructor; auto|]. destruct (c =? 47) eqn:E.
  - constructor; auto.
  - destruct (pieces s) as [|p ps]; [repeat constructor; cbn; lia|]. inversion_clear IH as [|? ? H1 H2].
    constructor; [cbn [In]; intuition lia|assumption].
Qed.
Lemma pieces_app_slash a s : pieces (a ++ 47 :: s) = pieces a ++ pieces s.
Proof.
  induction a as [|c a IH]; [reflexivity|]. cbn [app pieces]. rewrite IH. destruct (c =? 47); [reflexivity|].
  destruct (pieces a) as [|p ps] eqn:Ep; [now apply pieces_ne in Ep|reflexivity].
Qed.
Lemma pieces_one p : ~ In 47 p -> pieces p = [p].
Proof.
  induction p as [|c p IH]; intros H; [reflexivity|]. cbn [pieces]. cbn [In] in H.
  replace (c =? 47) with false by lia. now rewrite IH by auto.
Qed.
Lemma pieces_join_app ws s : Forall (fun p => ~ In 47 p) ws -> pieces (join 47 ws ++ s) = ws ++ pieces s.
Proof.
  induction 1 as [|w ws Hw F IH]; [reflexivity|]. cbn [join flat_map]. fold (join 47 ws). rewrite <- !app_assoc.
  cbn [app]. rewrite pieces_app_slash, IH, (pieces_one w Hw). reflexivity.
Qed.
Lemma pieces_wf s : wf16 s -> Forall wf16 (pieces s).
Proof.
  remember (List.length s) as n eqn:En. revert s En. induction n as [n IH] using lt_wf_ind. intros s En W.
  destruct (in_dec N.eq_dec 47 s) as [Hin|Hn].
  - apply in_split in Hin as (a & b & ->). rewrite pieces_app_slash.
    destruct (wf16_cut 47 ltac:(unfold surrogate; lia) a b W) as (Wa & Wb).
    rewrite app_length in En. cbn [List.length] in En.
    apply Forall_app. split; (eapply IH; [|reflexivity|assumption]; lia).
  - rewrite pieces_one by assumption. auto.
Qed.
