(** C75, C76: colours, vectors, matrices, rotations and lists of doubles as attributes. *)
From Coq Require Import String List NArith ZArith Bool Lia.
From Coq Require Import ZifyN ZifyNat ZifyBool.
From Verif Require Import Bytes BytesProofs Txt UtfModel StringModel StringSpec StringProofs UuidModel NumModel NumProofs ConvModel ConvProps
  FloatModel FloatProps VecModel.
Import ListNotations.
Open Scope N_scope.
Open Scope list_scope.
Ltac Zify.zify_post_hook ::= idtac.

(** ** Specification *)
(** [y] stands for [x] after a round trip: the same text, the same sign, at most one millionth away. *)
Definition kept (x y : fl) : Prop :=
  valid y /\ fl_text 46 y = fl_text 46 x /\
  match x with
  | Fin neg u => exists u', y = Fin neg u' /\ (Z.abs (Z.of_N u' - Z.of_N u) * 1000000 <= 2 ^ 1074)%Z
  | _ => y = x
  end.
Definition each (P : fl -> Prop) (v : vec) : Prop := let '(a, b, c) := v in P a /\ P b /\ P c.
Definition kept3 (v w : vec) : Prop := let '(a, b, c) := v in let '(a', b', c') := w in kept a a' /\ kept b b' /\ kept c c'.
Definition valid_mat (m : mat) : Prop := each valid (mU m) /\ each valid (mV m) /\ each valid (mW m) /\ each valid (mO m).
Definition kept_mat (m n : mat) : Prop := kept3 (mU m) (mU n) /\ kept3 (mV m) (mV n) /\ kept3 (mW m) (mW n) /\ kept3 (mO m) (mO n).

(** ** Splitting *)
Lemma scan_found c sep t : forall p i, ~ In c p -> scan (is_prefix (c :: sep)) (p ++ (c :: sep) ++ t) i = Some (i + nlen p).
Proof.
  assert (P : forall (a b : list N), is_prefix a (a ++ b) = true).
  { induction a as [|x a IH]; intros b; [reflexivity|]. cbn [app is_prefix]. now rewrite N.eqb_refl, IH. }
  induction p as [|x p IH]; intros i H.
  - pose proof (P (c :: sep) t) as Q. cbn [app] in *. cbn [scan]. rewrite Q. change (nlen []) with 0. now rewrite N.add_0_r.
  - cbn [app scan is_prefix]. assert (c <> x) by (intros ->; apply H; now left). replace (c =? x) with false by lia. cbn [andb].
    change (c :: sep ++ t) with ((c :: sep) ++ t). rewrite IH by (intros X; apply H; now right). rewrite nlen_cons. f_equal. lia.
Qed.
Lemma scan_none c sep : forall s i, ~ In c s -> scan (is_prefix (c :: sep)) s i = None.
Proof.
  induction s as [|x s IH]; intros i H; [reflexivity|]. cbn [scan is_prefix]. assert (c <> x) by (intros ->; apply H; now left).
  replace (c =? x) with false by lia. cbn [andb]. apply IH. intros X. apply H. now right.
Qed.
Lemma find_found c sep p t : ~ In c p -> tx_find (p ++ (c :: sep) ++ t) (c :: sep) 0 false = Some (nlen p).
Proof. intros H. cbn [tx_find]. unfold ustr_find, find_from. replace (_ <? 0) with false by lia. cbn [N.to_nat skipn]. now rewrite scan_found. Qed.
Lemma find_nothing c sep s : ~ In c s -> tx_find s (c :: sep) 0 false = None.
Proof. intros H. cbn [tx_find]. unfold ustr_find, find_from. replace (_ <? 0) with false by lia. cbn [N.to_nat skipn]. now rewrite scan_none. Qed.
Lemma cut_front s (p : list N) rest sep : s = p ++ sep ++ rest -> map (fun i => get_at s i) (seq 0 (List.length p)) = p.
Proof.
  intros ->. change (map (get_at (p ++ sep ++ rest)) (seq 0 (List.length p)) = p). rewrite seq_get by (rewrite app_length; lia).
  rewrite firstn_app, firstn_all, Nat.sub_diag, firstn_O, app_nil_r. reflexivity.
Qed.
Lemma cut_rest (p sep rest : list N) : p <> [] -> delete (p ++ sep ++ rest) 0 (nlen p + nlen sep) = rest.
Proof.
  intros Hp. assert (0 < nlen p) by (destruct p; [congruence|rewrite nlen_cons; lia]). unfold delete. rewrite !nlen_app.
  replace (0 <? _) with true by lia. cbn [N.to_nat firstn app].
  replace (N.to_nat (0 + (nlen p + nlen sep))) with (List.length (p ++ sep)) by (rewrite app_length; unfold nlen; lia).
  rewrite app_assoc, skipn_app, skipn_all2, Nat.sub_diag by lia. reflexivity.
Qed.
Lemma parts_join c sep : forall ps fuel, Forall (fun p => p <> [] /\ ~ In c p) ps -> ps <> [] ->
  (List.length (join_with (c :: sep) ps) < fuel)%nat -> parts fuel (c :: sep) (join_with (c :: sep) ps) = Ok ps.
Proof.
  induction ps as [|p ps IH]; intros fuel F Hne Hf; [congruence|]. inversion_clear F as [|? ? (P1 & P2) F'].
  destruct fuel as [|fuel]; [lia|]. destruct ps as [|p' ps].
  - cbn [join_with parts]. rewrite find_nothing by exact P2. reflexivity.
  - change (join_with (c :: sep) (p :: p' :: ps)) with (p ++ (c :: sep) ++ join_with (c :: sep) (p' :: ps)) in *.
    set (rest := join_with (c :: sep) (p' :: ps)) in *. cbn [parts]. rewrite find_found by exact P2.
    destruct (nlen p) as [|k] eqn:Ek; [destruct p; [congruence|rewrite nlen_cons in Ek; lia]|].
    replace (Pos.to_nat k) with (List.length p) by (unfold nlen in Ek; lia).
    rewrite (cut_front _ p rest (c :: sep) eq_refl). rewrite <- Ek, cut_rest by exact P1.
    unfold rest. rewrite IH; [reflexivity|exact F'|discriminate|]. fold rest. rewrite !app_length in Hf. cbn [List.length] in Hf. lia.
Qed.
Lemma split_join c sep ps : Forall (fun p => p <> [] /\ ~ In c p) ps -> ps <> [] -> split_at (c :: sep) (join_with (c :: sep) ps) = Ok ps.
Proof. intros F H. unfold split_at. apply parts_join; [exact F|exact H|lia]. Qed.
(** Whatever the text: the parts are the text cut at separators, and only the last can be empty or
    contain or start with a separator. *)
Lemma parts_spec sep : sep <> [] -> forall fuel s ps, parts fuel sep s = Ok ps -> join_with sep ps = s /\ ps <> [].
Proof.
  intros Hs. induction fuel as [|fuel IH]; intros s ps H; [discriminate|]. cbn [parts] in H.
  destruct (tx_find s sep 0 false) as [[|k]|] eqn:E; [injection H as <-; split; [reflexivity|discriminate]| |injection H as <-; split; [reflexivity|discriminate]].
  destruct (parts fuel sep (delete s 0 (N.pos k + nlen sep))) as [r| | |] eqn:Er; cbn [bind] in H; try discriminate.
  injection H as <-. destruct sep as [|c sep]; [congruence|]. cbn [tx_find] in E.
  pose proof (find_occ false s (c :: sep) 0) as O. cbv iota in O. rewrite E in O. destruct O as (_ & (a & m & b & Es & La & Em) & _).
  assert (m = c :: sep) as ->.
  { assert (I : forall l, map (fold false) l = l) by (intros l; rewrite <- (map_id l) at 2; apply map_ext; reflexivity). now rewrite !I in Em. }
  assert (Ha : a <> []) by (intros ->; discriminate).
  apply IH in Er as (J & Hr). rewrite <- La, Es in J. rewrite cut_rest in J by exact Ha.
  replace (Pos.to_nat k) with (List.length a) by (unfold nlen in La; lia).
  rewrite (cut_front s a b (c :: sep) Es). split; [|discriminate]. destruct r as [|x r]; [congruence|].
  cbn [join_with]. cbn [join_with] in J. rewrite J. symmetry. exact Es.
Qed.
Lemma split_spec sep s ps : sep <> [] -> split_at sep s = Ok ps -> join_with sep ps = s /\ ps <> [].
Proof. intros Hs H. exact (parts_spec sep Hs _ _ _ H). Qed.
Lemma parts_ends sep : sep <> [] -> forall fuel s, (List.length s < fuel)%nat -> exists ps, parts fuel sep s = Ok ps.
Proof.
  intros Hs. induction fuel as [|fuel IH]; intros s Hf; [lia|]. cbn [parts].
  destruct (tx_find s sep 0 false) as [[|k]|] eqn:E; eauto.
  destruct (IH (delete s 0 (N.pos k + nlen sep))) as (r & ->); [|cbn [bind]; eauto].
  destruct sep as [|c sep]; [congruence|]. cbn [tx_find] in E.
  pose proof (find_occ false s (c :: sep) 0) as O. cbv iota in O. rewrite E in O. destruct O as (_ & O & _). apply occ_bound in O.
  unfold delete. replace (0 <? nlen s) with true by lia. cbn [N.to_nat firstn app]. rewrite skipn_length. unfold nlen in *. lia.
Qed.
Lemma split_ends sep s : sep <> [] -> exists ps, split_at sep s = Ok ps.
Proof. intros Hs. apply (parts_ends sep Hs). lia. Qed.

(** ** Texts of doubles *)
Definition plain (c : N) : Prop := c <> 44 /\ c <> 123 /\ c <> 125.
Lemma text_plain x : Forall plain (fl_text 46 x).
Proof.
  destruct x as [neg u|neg|neg]; [|destruct neg; repeat constructor; discriminate..].
  cbn [fl_text]. apply Forall_app. split; [destruct neg; repeat constructor; discriminate|].
  apply Forall_app. split; [|constructor; [repeat split; discriminate|]].
  - destruct (dec_spec (micros u / million)) as (D1 & _). eapply Forall_impl; [|exact D1]. unfold digit, plain. lia.
  - eapply Forall_impl; [|apply six_digits]. unfold digit, plain. lia.
Qed.
Lemma text_nonempty x : fl_text 46 x <> [].
Proof. destruct x as [neg u|neg|neg]; [|destruct neg; discriminate..]. cbn [fl_text]. intros H. apply app_eq_nil in H as (_ & H). apply app_eq_nil in H as (_ & H). discriminate. Qed.
Lemma text_piece x : fl_text 46 x <> [] /\ ~ In 44 (fl_text 46 x).
Proof.
  split; [apply text_nonempty|]. intros H. pose proof (proj1 (Forall_forall _ _) (text_plain x) _ H) as (P & _). now apply P.
Qed.
Lemma kept_read x : valid x -> exists y, atof 46 (fl_text 46 x) = Ok y /\ kept x y.
Proof.
  intros V. assert (P : point_ok 46) by now left. destruct (C66_stable 46 x P V) as (y & A & Vy & E).
  exists y. split; [exact A|]. split; [exact Vy|]. split; [exact E|]. destruct x as [neg u|neg|neg].
  - destruct (C66_close 46 neg u P V) as (u' & A' & C & _). rewrite A in A'. injection A' as ->. eauto.
  - clear -A. destruct neg; lazy in A; congruence.
  - clear -A. destruct neg; lazy in A; congruence.
Qed.
Lemma all_kept l : Forall valid l -> exists ys, all_ok (atof 46) (map (fl_text 46) l) = Ok ys /\ Forall2 kept l ys.
Proof.
  induction 1 as [|x l V _ (ys & A & K)]; [exists []; split; [reflexivity|constructor]|].
  destruct (kept_read x V) as (y & Ay & Ky). exists (y :: ys). cbn [map all_ok]. rewrite Ay. cbn [bind]. rewrite A. split; [reflexivity|now constructor].
Qed.
Definition commas (l : list fl) : list N := join_with [44] (map (fl_text 46) l).
Definition one_entry (l : list fl) : N := match l with [_] => 1 | _ => 0 end.
Lemma read_commas l : Forall valid l -> l <> [] -> exists ys, read_values 46 (commas l) = Ok (ys, one_entry l) /\ Forall2 kept l ys.
Proof.
  intros V Hn. destruct (all_kept l V) as (ys & A & K). exists ys. split; [|exact K]. unfold read_values, commas. change (T",") with [44].
  rewrite split_join; [|apply Forall_forall; intros t Ht; apply in_map_iff in Ht as (x & <- & _); apply text_piece|destruct l; [congruence|discriminate]].
  cbn [bind]. rewrite A. cbn [bind]. do 2 f_equal. destruct l as [|x [|y l]]; [congruence| |].
  - cbn [map join_with]. rewrite find_nothing by apply text_piece. reflexivity.
  - cbn [map one_entry]. change (join_with [44] (fl_text 46 x :: fl_text 46 y :: map (fl_text 46) l)) with (fl_text 46 x ++ [44] ++ join_with [44] (fl_text 46 y :: map (fl_text 46) l)).
    rewrite find_found by apply text_piece. reflexivity.
Qed.
Lemma read3 a b c : valid a -> valid b -> valid c -> exists a' b' c', read_values 46 (commas [a; b; c]) = Ok ([a'; b'; c'], 0) /\ kept a a' /\ kept b b' /\ kept c c'.
Proof.
  intros A B C. destruct (read_commas [a; b; c]) as (ys & R & K); [auto|discriminate|].
  inversion K as [|? a' ? r1 Ka K1]; subst. inversion K1 as [|? b' ? r2 Kb K2]; subst. inversion K2 as [|? c' ? r3 Kc K3]; subst. inversion K3; subst.
  exists a', b', c'. auto.
Qed.
Lemma read4 a b c d : valid a -> valid b -> valid c -> valid d -> exists a' b' c' d', read_values 46 (commas [a; b; c; d]) = Ok ([a'; b'; c'; d'], 0)
  /\ kept a a' /\ kept b b' /\ kept c c' /\ kept d d'.
Proof.
  intros A B C D. destruct (read_commas [a; b; c; d]) as (ys & R & K); [auto|discriminate|].
  inversion K as [|? a' ? r1 Ka K1]; subst. inversion K1 as [|? b' ? r2 Kb K2]; subst. inversion K2 as [|? c' ? r3 Kc K3]; subst.
  inversion K3 as [|? d' ? r4 Kd K4]; subst. inversion K4; subst. exists a', b', c', d'. auto.
Qed.
Lemma commas_chars l : Forall (fun c => c <> 123 /\ c <> 125) (commas l).
Proof.
  unfold commas. induction l as [|x l IH]; [constructor|]. assert (X : Forall (fun c => c <> 123 /\ c <> 125) (fl_text 46 x)).
  { eapply Forall_impl; [|apply text_plain]. unfold plain. tauto. }
  destruct l as [|y l]; [exact X|]. cbn [map join_with]. apply Forall_app. split; [exact X|]. apply Forall_app. split; [|exact IH].
  repeat constructor; discriminate.
Qed.
Lemma commas_nonempty x l : commas (x :: l) <> [].
Proof.
  unfold commas. cbn [map]. destruct l as [|y l]; [apply text_nonempty|]. cbn [map join_with]. intros H. apply app_eq_nil in H as (H & _). now apply text_nonempty in H.
Qed.

(** ** Lines in braces *)
Definition braces (ls : list (list N)) : list N := flat_map (fun l => [123] ++ l ++ [125]) ls.
Lemma braces_join l ls : braces (l :: ls) = [123] ++ join_with [125; 123] (l :: ls) ++ [125].
Proof.
  revert l. induction ls as [|x ls IH]; intros l; [cbn; now rewrite app_nil_r|].
  unfold braces. cbn [flat_map]. fold (braces (x :: ls)).
  change (flat_map (fun l => [123] ++ l ++ [125]) ls) with (braces ls) in *. change (([123] ++ x ++ [125]) ++ braces ls) with (braces (x :: ls)).
  rewrite IH. change (join_with [125; 123] (l :: x :: ls)) with (l ++ [125; 123] ++ join_with [125; 123] (x :: ls)). rewrite <- !app_assoc. reflexivity.
Qed.
Lemma brackets_ok s : brackets ([123] ++ s ++ [125]) = (s, 0).
Proof.
  unfold brackets, open_bracket. change (get_at ([123] ++ s ++ [125]) 0 =? 123) with true. cbv iota.
  assert (D : delete ([123] ++ s ++ [125]) 0 1 = s ++ [125]).
  { unfold delete. replace (0 <? _) with true by (symmetry; apply N.ltb_lt; rewrite nlen_app; change (nlen [123]) with 1; lia). reflexivity. }
  rewrite D. unfold close_bracket. rewrite rev_app_distr. cbn [rev app]. change (125 =? 125) with true. cbv iota. now rewrite rev_involutive.
Qed.
Lemma lines_read l ls : Forall (fun t => t <> [] /\ Forall (fun c => c <> 123 /\ c <> 125) t) (l :: ls) ->
  is_empty (braces (l :: ls)) = false /\ exists b, brackets (braces (l :: ls)) = (b, 0) /\ split_at (T"}{") b = Ok (l :: ls).
Proof.
  intros F. split; [reflexivity|]. exists (join_with [125; 123] (l :: ls)). rewrite braces_join, brackets_ok. split; [reflexivity|].
  change (T"}{") with [125; 123]. apply split_join; [|discriminate]. eapply Forall_impl; [|exact F]. cbv beta. intros t (T1 & T2). split; [exact T1|].
  intros H. destruct (proj1 (Forall_forall _ _) T2 _ H) as (_ & X). now apply X.
Qed.
Lemma commas_line x l : commas (x :: l) <> [] /\ Forall (fun c => c <> 123 /\ c <> 125) (commas (x :: l)).
Proof. split; [apply commas_nonempty|apply commas_chars]. Qed.

(** The texts of the writers as lines in braces. *)
Lemma row3_braces a b c : row3 46 (a, b, c) = braces [commas [a; b; c]].
Proof. unfold row3, braces, commas. cbn [flat_map map join_with]. change (T",") with [44]. change (T"{") with [123]. change (T"}") with [125]. rewrite <- !app_assoc. reflexivity. Qed.
Lemma row4_braces a b c o : row4 46 (a, b, c) o = braces [commas [a; b; c; o]].
Proof. unfold row4, braces, commas. cbn [flat_map map join_with]. change (T",") with [44]. change (T"{") with [123]. change (T"}") with [125]. rewrite <- !app_assoc. reflexivity. Qed.
Lemma braces_app a b : braces a ++ braces b = braces (a ++ b).
Proof. unfold braces. now rewrite flat_map_app. Qed.

Lemma last_line : read_values 46 (T"0,0,0,1") = Ok ([zero; zero; zero; one], 0).
Proof. vm_compute. reflexivity. Qed.
(** ** C75 *)
Lemma kept_text x y : kept x y -> fl_text 46 y = fl_text 46 x. Proof. now intros (_ & H & _). Qed.
Lemma kept3_row v w : kept3 v w -> row3 46 w = row3 46 v /\ write_color 46 w = write_color 46 v.
Proof. destruct v as ((a, b), c), w as ((a', b'), c'). intros (A & B & C). unfold row3, write_color. now rewrite (kept_text _ _ A), (kept_text _ _ B), (kept_text _ _ C). Qed.
(** A matrix in either format: every number stands at its place, and the text is the same again. *)
Theorem C75_matrix : forall four m old, valid_mat m -> exists m', read_matrix 46 old (write_matrix 46 four m) = Ok (mkRd m' true 0)
  /\ kept_mat m m' /\ forall f, write_matrix 46 f m' = write_matrix 46 f m.
Proof.
  intros four m old (VU & VV & VW & VO). destruct m as [((u1, u2), u3) ((v1, v2), v3) ((w1, w2), w3) ((o1, o2), o3)]. cbn [mU mV mW mO each] in *.
  destruct VU as (VU1 & VU2 & VU3), VV as (VV1 & VV2 & VV3), VW as (VW1 & VW2 & VW3), VO as (VO1 & VO2 & VO3).
  assert (G : exists m', read_matrix 46 old (write_matrix 46 four (mkMat (u1, u2, u3) (v1, v2, v3) (w1, w2, w3) (o1, o2, o3))) = Ok (mkRd m' true 0)
    /\ kept_mat (mkMat (u1, u2, u3) (v1, v2, v3) (w1, w2, w3) (o1, o2, o3)) m').
  { unfold read_matrix. destruct four.
    - assert (W : write_matrix 46 true (mkMat (u1, u2, u3) (v1, v2, v3) (w1, w2, w3) (o1, o2, o3))
        = braces [commas [u1; u2; u3; o1]; commas [v1; v2; v3; o2]; commas [w1; w2; w3; o3]; T"0,0,0,1"]).
      { unfold write_matrix. cbn [mU mV mW mO]. rewrite !row4_braces. change (T"{0,0,0,1}") with (braces [T"0,0,0,1"]). rewrite !braces_app. reflexivity. }
      rewrite W. clear W.
      destruct (lines_read (commas [u1; u2; u3; o1]) [commas [v1; v2; v3; o2]; commas [w1; w2; w3; o3]; T"0,0,0,1"]) as (Em & b & B1 & B2).
      { repeat (apply Forall_cons; [apply commas_line|]). apply Forall_cons; [|constructor]. split; [discriminate|]. repeat constructor; discriminate. }
      pose proof last_line as R4. revert Em B1 B2 R4. generalize (T"0,0,0,1") as l4. intros l4 Em B1 B2 R4.
      rewrite Em, B1, B2. cbn [bind List.length]. change ((4 =? 4)%nat) with true. cbv iota.
      destruct (read4 u1 u2 u3 o1) as (a1 & a2 & a3 & a4 & R1 & A1 & A2 & A3 & A4); [assumption..|].
      destruct (read4 v1 v2 v3 o2) as (b1 & b2 & b3 & b4 & R2 & E1 & E2 & E3 & E4); [assumption..|].
      destruct (read4 w1 w2 w3 o3) as (c1 & c2 & c3 & c4 & R3 & F1 & F2 & F3 & F4); [assumption..|].
      cbn [matrix_lines]. rewrite R1. cbn [bind fst snd matrix_lines]. rewrite R2. cbn [bind fst snd matrix_lines]. rewrite R3. cbn [bind fst snd matrix_lines].
      rewrite R4. cbn [bind fst snd matrix_lines]. destruct (mO old) as ((p1, p2), p3) eqn:Eo.
      eexists. split; [unfold set_offset, set_row; cbn [mU mV mW mO Nat.ltb Nat.leb]; rewrite ?Eo; cbn [mU mV mW mO]; reflexivity|].
      unfold kept_mat, kept3. cbn [mU mV mW mO]. tauto.
    - assert (W : write_matrix 46 false (mkMat (u1, u2, u3) (v1, v2, v3) (w1, w2, w3) (o1, o2, o3))
        = braces [commas [u1; u2; u3]; commas [v1; v2; v3]; commas [w1; w2; w3]; commas [o1; o2; o3]]).
      { unfold write_matrix. cbn [mU mV mW mO]. rewrite !row3_braces, !braces_app. reflexivity. }
      rewrite W. clear W.
      destruct (lines_read (commas [u1; u2; u3]) [commas [v1; v2; v3]; commas [w1; w2; w3]; commas [o1; o2; o3]]) as (Em & b & B1 & B2).
      { repeat (apply Forall_cons; [apply commas_line|]). constructor. }
      rewrite Em, B1, B2. cbn [bind List.length]. change ((4 =? 4)%nat) with true. cbv iota.
      destruct (read3 u1 u2 u3) as (a1 & a2 & a3 & R1 & A1 & A2 & A3); [assumption..|].
      destruct (read3 v1 v2 v3) as (b1 & b2 & b3 & R2 & E1 & E2 & E3); [assumption..|].
      destruct (read3 w1 w2 w3) as (c1 & c2 & c3 & R3 & F1 & F2 & F3); [assumption..|].
      destruct (read3 o1 o2 o3) as (d1 & d2 & d3 & R4 & G1 & G2 & G3); [assumption..|].
      cbn [matrix_lines]. rewrite R1. cbn [bind fst snd matrix_lines]. rewrite R2. cbn [bind fst snd matrix_lines]. rewrite R3. cbn [bind fst snd matrix_lines].
      rewrite R4. cbn [bind fst snd matrix_lines].
      eexists. split; [unfold set_row; cbn [mU mV mW mO]; reflexivity|]. unfold kept_mat, kept3. cbn [mU mV mW mO]. tauto. }
  destruct G as (m' & R & K). exists m'. split; [exact R|]. split; [exact K|]. intros f.
  destruct m' as [((x1, x2), x3) ((y1, y2), y3) ((z1, z2), z3) ((t1, t2), t3)]. destruct K as ((K1 & K2 & K3) & (L1 & L2 & L3) & (M1 & M2 & M3) & (N1 & N2 & N3)).
  cbn [mU mV mW mO] in *. unfold write_matrix, row3, row4. cbn [mU mV mW mO].
  rewrite (kept_text _ _ K1), (kept_text _ _ K2), (kept_text _ _ K3), (kept_text _ _ L1), (kept_text _ _ L2), (kept_text _ _ L3),
    (kept_text _ _ M1), (kept_text _ _ M2), (kept_text _ _ M3), (kept_text _ _ N1), (kept_text _ _ N2), (kept_text _ _ N3). reflexivity.
Qed.
(** A rotation replaces the first three rows and keeps the offset. *)
Theorem C75_rotation : forall m old, valid_mat m -> exists m', read_rotation 46 old (write_rotation 46 m) = Ok (mkRd m' true 0)
  /\ kept3 (mU m) (mU m') /\ kept3 (mV m) (mV m') /\ kept3 (mW m) (mW m') /\ mO m' = mO old
  /\ write_rotation 46 m' = write_rotation 46 m.
Proof.
  intros m old (VU & VV & VW & _). destruct m as [((u1, u2), u3) ((v1, v2), v3) ((w1, w2), w3) o]. cbn [mU mV mW mO each] in *.
  destruct VU as (VU1 & VU2 & VU3), VV as (VV1 & VV2 & VV3), VW as (VW1 & VW2 & VW3).
  assert (W : write_rotation 46 (mkMat (u1, u2, u3) (v1, v2, v3) (w1, w2, w3) o) = braces [commas [u1; u2; u3]; commas [v1; v2; v3]; commas [w1; w2; w3]]).
  { unfold write_rotation. cbn [mU mV mW mO]. rewrite !row3_braces, !braces_app. reflexivity. }
  destruct (lines_read (commas [u1; u2; u3]) [commas [v1; v2; v3]; commas [w1; w2; w3]]) as (_ & b & B1 & B2).
  { repeat (apply Forall_cons; [apply commas_line|]). constructor. }
  unfold read_rotation. rewrite W. rewrite B1, B2. cbn [bind List.length]. change ((3 =? 3)%nat) with true. cbv iota.
  destruct (read3 u1 u2 u3) as (a1 & a2 & a3 & R1 & A1 & A2 & A3); [assumption..|].
  destruct (read3 v1 v2 v3) as (b1 & b2 & b3 & R2 & E1 & E2 & E3); [assumption..|].
  destruct (read3 w1 w2 w3) as (c1 & c2 & c3 & R3 & F1 & F2 & F3); [assumption..|].
  cbn [rotation_lines]. rewrite R1. cbn [bind fst snd rotation_lines]. rewrite R2. cbn [bind fst snd rotation_lines]. rewrite R3. cbn [bind fst snd rotation_lines].
  eexists. split; [unfold set_row; cbn [mU mV mW mO]; reflexivity|]. unfold kept3. cbn [mU mV mW mO].
  repeat split; try assumption; try apply A1; try apply A2; try apply A3; try apply E1; try apply E2; try apply E3; try apply F1; try apply F2; try apply F3.
  rewrite <- W. unfold write_rotation. cbn [mU mV mW]. unfold row3.
  rewrite (kept_text _ _ A1), (kept_text _ _ A2), (kept_text _ _ A3), (kept_text _ _ E1), (kept_text _ _ E2), (kept_text _ _ E3),
    (kept_text _ _ F1), (kept_text _ _ F2), (kept_text _ _ F3). reflexivity.
Qed.
Theorem C75_vector : forall v old, each valid v -> exists v', read_vec 46 old (write_vec 46 v) = Ok (mkRd v' true 0)
  /\ kept3 v v' /\ write_vec 46 v' = write_vec 46 v.
Proof.
  intros ((a, b), c) old (A & B & C). destruct (read3 a b c A B C) as (a' & b' & c' & R & K). exists (a', b', c'). split; [|split; [exact K|]].
  - unfold read_vec, write_vec. rewrite row3_braces. destruct (lines_read (commas [a; b; c]) []) as (Em & t & B1 & B2); [constructor; [apply commas_line|constructor]|].
    rewrite Em, B1. apply split_spec in B2 as (J & _); [|discriminate]. cbn [join_with] in J. rewrite <- J, R. reflexivity.
  - apply (kept3_row (a, b, c) (a', b', c') K).
Qed.
Theorem C75_color : forall c white, each valid c -> exists c', read_color 46 white (write_color 46 c) = Ok (mkRd c' true 0)
  /\ kept3 c c' /\ write_color 46 c' = write_color 46 c.
Proof.
  intros ((a, b), c) w (A & B & C). destruct (read3 a b c A B C) as (a' & b' & c' & R & K). exists (a', b', c'). split; [|split; [exact K|]].
  - unfold read_color. change (write_color 46 (a, b, c)) with (commas [a; b; c]).
    destruct (commas [a; b; c]) eqn:E; [now apply commas_nonempty in E|]. cbn [is_empty]. rewrite R. reflexivity.
  - apply (kept3_row (a, b, c) (a', b', c') K).
Qed.
Definition line_of (v : vec) : list N := let '(a, b, c) := v in commas [a; b; c].
Lemma colors_braces l : write_colors 46 l = braces (map line_of l).
Proof. induction l as [|((a, b), c) l IH]; [reflexivity|]. cbn [write_colors flat_map map]. fold (write_colors 46 l). rewrite IH, row3_braces, braces_app. reflexivity. Qed.
Lemma add_colors_ok : forall l cs e, Forall (each valid) l -> exists l', add_colors 46 cs (map line_of l) e = Ok (cs ++ l', e) /\ Forall2 kept3 l l'.
Proof.
  induction l as [|((a, b), c) l IH]; intros cs e F; [exists []; rewrite app_nil_r; split; [reflexivity|constructor]|].
  inversion_clear F as [|? ? X F']. destruct X as (A & B & C). destruct (read3 a b c A B C) as (a' & b' & c' & R & K). cbn [map add_colors line_of]. rewrite R. cbn [bind fst snd].
  destruct (IH (cs ++ [(a', b', c')]) (e + 0) F') as (l' & E & K'). exists ((a', b', c') :: l'). rewrite E, <- app_assoc, N.add_0_r. split; [reflexivity|]. now constructor.
Qed.
(** The colours are appended to those already there. *)
Theorem C75_colors : forall l old, Forall (each valid) l -> exists l', read_colors 46 old (write_colors 46 l) = Ok (mkRd (old ++ l') true 0)
  /\ Forall2 kept3 l l' /\ write_colors 46 l' = write_colors 46 l.
Proof.
  intros l old F. destruct (add_colors_ok l old 0 F) as (l' & E & K). exists l'. split; [|split; [exact K|]].
  - unfold read_colors. rewrite colors_braces. destruct l as [|v l]; [inversion K; subst; rewrite app_nil_r; reflexivity|].
    cbn [map] in *. destruct (lines_read (line_of v) (map line_of l)) as (Em & b & B1 & B2).
    { change (line_of v :: map line_of l) with (map line_of (v :: l)). apply Forall_map. apply Forall_forall. intros ((x, y), z) _. apply commas_line. }
    rewrite Em, B1, B2. cbn [bind]. rewrite E. reflexivity.
  - clear E F. induction K as [|v w l l' K1 K2 IH]; [reflexivity|]. cbn [write_colors flat_map]. fold (write_colors 46 l) (write_colors 46 l').
    rewrite IH. now rewrite (proj1 (kept3_row v w K1)).
Qed.
(** Lists of doubles, with or without braces.  A single number is reported as an error. *)
Theorem C75_list : forall l br arr, Forall valid l -> l <> [] -> nlen (write_doubles 46 l br) < two64 ->
  exists l', read_doubles 46 arr (write_doubles 46 l br) = Ok (mkRd (arr ++ l') true (if nlen l =? 1 then 1 else 0))
  /\ Forall2 kept l l' /\ write_doubles 46 l' br = write_doubles 46 l br.
Proof.
  intros l br arr V Hn Hlen. destruct (read_commas l V Hn) as (l' & R & K). exists l'. split; [|split; [exact K|]].
  - assert (W : write_doubles 46 l br = (if br then [123] else []) ++ commas l ++ (if br then [125] else [])) by reflexivity.
    pose proof (commas_chars l) as C. rewrite Forall_forall in C.
    assert (En : is_empty (write_doubles 46 l br) = false).
    { rewrite W. destruct br; [reflexivity|]. cbn [app]. rewrite app_nil_r. destruct l as [|x l]; [congruence|].
      pose proof (commas_nonempty x l). destruct (commas (x :: l)); [congruence|reflexivity]. }
    unfold read_doubles. rewrite En. rewrite replace1_ok by exact Hlen. cbn [bind].
    assert (F1 : filter (fun x => negb (x =? 123)) (write_doubles 46 l br) = commas l ++ (if br then [125] else [])).
    { rewrite W, !filter_app. rewrite (filter_id (fun x => negb (x =? 123)) (commas l)) by (intros c Hc; specialize (C c Hc); lia). destruct br; reflexivity. }
    rewrite F1. rewrite replace1_ok.
    2:{ eapply N.le_lt_trans; [|exact Hlen]. rewrite W, !nlen_app. lia. }
    cbn [bind]. rewrite filter_app. rewrite (filter_id (fun x => negb (x =? 125)) (commas l)) by (intros c Hc; specialize (C c Hc); lia).
    assert (filter (fun x => negb (x =? 125)) (if br then [125] else []) = []) as -> by (destruct br; reflexivity).
    rewrite app_nil_r, R. cbn [bind fst snd]. do 2 f_equal. destruct l as [|x [|y l]]; [congruence|reflexivity|]. cbn [one_entry].
    rewrite !nlen_cons. replace (1 + (1 + nlen l) =? 1) with false by lia. reflexivity.
  - clear -K. unfold write_doubles. do 2 f_equal. induction K as [|x y l l' K1 K2 IH]; [reflexivity|]. cbn [map].
    rewrite (kept_text _ _ K1). inversion K2; subst; [reflexivity|]. cbn [map join_with] in *. now rewrite IH.
Qed.

Definition third : fl := Fin false (6004799503160661 * 2 ^ 1020).
(** With the decimal point ',' a colour is not read back. *)
Theorem C75_comma_refuted : exists c white, each valid c /\ read_color 44 white (write_color 44 c) = Ok (mkRd white false 1).
Proof.
  exists (one, zero, one), (zero, zero, one). split; [|vm_compute; reflexivity].
  assert (V0 : valid zero) by (split; [exists 0, 0; split; reflexivity|reflexivity]).
  assert (V1 : valid one).
  { split; [exists 1, 1074; split; [now rewrite N.mul_1_l|reflexivity]|]. unfold units. apply N.pow_lt_mono_r; reflexivity. }
  repeat split; assumption || apply V0 || apply V1.
Qed.
(** The empty list in braces is read as one zero. *)
Theorem C75_empty_refuted : exists br, read_doubles 46 [] (write_doubles 46 [] br) = Ok (mkRd [zero] true 1).
Proof. exists true. vm_compute. reflexivity. Qed.
(** A third, minus two and a not-a-number. *)
Example C75_case : read_vec 46 (zero, zero, zero) (T"{0.333333,-2.000000,nan}") = Ok (mkRd (Fin false (6004793498361158 * 2 ^ 1020), Fin true (2 ^ 1075), NaN false) true 0)
  /\ write_vec 46 (third, Fin true (2 ^ 1075), NaN false) = T"{0.333333,-2.000000,nan}"
  /\ read_matrix 46 identity (T"{2,0,0,5}{0,3,0,6}{0,0,4,7}{0,0,0,1}") = read_matrix 46 identity (T"{2,0,0}{0,3,0}{0,0,4}{5,6,7}")
  /\ read_colors 46 [] (T"{0.25,0.5,1}{1,1,1}") = Ok (mkRd [(Fin false (2 ^ 1072), Fin false (2 ^ 1073), one); (one, one, one)] true 0)
  /\ read_doubles 46 [one] (T"{1,2}") = Ok (mkRd [one; one; Fin false (2 ^ 1075)] true 0).
Proof. refine (conj _ (conj _ (conj _ (conj _ _)))); vm_compute; reflexivity. Qed.
Print Assumptions C75_matrix.
Print Assumptions C75_rotation.
Print Assumptions C75_vector.
Print Assumptions C75_color.
Print Assumptions C75_colors.
Print Assumptions C75_list.
Print Assumptions C75_comma_refuted.
Print Assumptions C75_empty_refuted.

(** ** C76 *)
(** [s] is [ps] with commas between. *)
Definition comma_list (p : N) (s : list N) (ps : list (list N)) (xs : list fl) : Prop :=
  join_with (T",") ps = s /\ Forall2 (fun t x => atof p t = Ok x) ps xs.
Lemma bind_inv {A B} (x : res A) (f : A -> res B) y : bind x f = Ok y -> exists a, x = Ok a /\ f a = Ok y.
Proof. destruct x; cbn; try discriminate. eauto. Qed.
Lemma all_ok_inv {A B} (f : A -> res B) : forall l r, all_ok f l = Ok r -> Forall2 (fun a b => f a = Ok b) l r.
Proof.
  induction l as [|a l IH]; intros r H; cbn [all_ok] in H; [injection H as <-; constructor|].
  apply bind_inv in H as (b & Hb & H). apply bind_inv in H as (bs & Hbs & H). injection H as <-. constructor; [exact Hb|now apply IH].
Qed.
Lemma values_inv p s xs e : read_values p s = Ok (xs, e) -> exists ps, comma_list p s ps xs.
Proof.
  unfold read_values. intros H. apply bind_inv in H as (ps & Hs & H). apply bind_inv in H as (ys & Hy & H). injection H as <- _.
  exists ps. split; [|now apply all_ok_inv]. apply split_spec in Hs; [apply Hs|discriminate].
Qed.
Lemma brackets_inv s b : brackets s = (b, 0) -> s = T"{" ++ b ++ T"}".
Proof.
  unfold brackets, open_bracket. destruct (get_at s 0 =? 123) eqn:E.
  - destruct s as [|c s]; [discriminate|]. unfold get_at in E. cbn [nth] in E. apply N.eqb_eq in E. subst c.
    assert (D : delete (123 :: s) 0 1 = s) by (unfold delete; replace (0 <? _) with true by (symmetry; apply N.ltb_lt; rewrite nlen_cons; lia); reflexivity).
    rewrite D. unfold close_bracket. destruct (rev s) as [|c r] eqn:Er; [intros H; exfalso; assert (H2 := f_equal snd H); cbn [snd] in H2; lia|].
    destruct (c =? 125) eqn:Ec; [|intros H; exfalso; assert (H2 := f_equal snd H); cbn [snd] in H2; lia]. intros H. assert (H1 := f_equal fst H). cbn [fst] in H1. subst b.
    apply N.eqb_eq in Ec. subst c. change (T"{") with [123]. change (T"}") with [125]. cbn [app]. f_equal. rewrite <- (rev_involutive s), Er. reflexivity.
  - destruct (close_bracket s) as (b', e2). intros H. assert (H2 := f_equal snd H). cbn [snd] in H2. lia.
Qed.
(** A vector accepted without an error is three numbers in braces; those numbers are the result. *)
Theorem C76_vector : forall p old s v, read_vec p old s = Ok (mkRd v true 0) -> s <> [] ->
  exists b ps, s = T"{" ++ b ++ T"}" /\ comma_list p b ps (let '(x, y, z) := v in [x; y; z]).
Proof.
  intros p old s v H Hs. unfold read_vec in H. destruct s as [|c s]; [congruence|]. cbn [is_empty] in H. set (t := c :: s) in *.
  destruct (brackets t) as (b, e) eqn:B. apply bind_inv in H as ((xs, e') & Hr & H). cbn [fst snd] in H.
  destruct xs as [|x [|y [|z [|? ?]]]]; try discriminate. injection H as <- E. assert (e = 0) as -> by lia.
  apply brackets_inv in B. destruct (values_inv _ _ _ _ Hr) as (ps & Hp). eauto.
Qed.
Theorem C76_color : forall p white s v e, read_color p white s = Ok (mkRd v true e) -> s <> [] ->
  e = 0 /\ exists ps, comma_list p s ps (let '(x, y, z) := v in [x; y; z]).
Proof.
  intros p white s v e H Hs. unfold read_color in H. destruct s as [|c s]; [congruence|]. cbn [is_empty] in H. set (t := c :: s) in *.
  apply bind_inv in H as ((xs, e') & Hr & H). cbn [fst snd] in H.
  destruct xs as [|x [|y [|z [|? ?]]]]; try discriminate. injection H as <- <-. destruct (values_inv _ _ _ _ Hr) as (ps & Hp). split; [|eauto].
  unfold read_values in Hr. apply bind_inv in Hr as (qs & Hq & Hr). apply bind_inv in Hr as (ys & Hy & Hr). 
  destruct (tx_find t (T",") 0 false) as [k|] eqn:F; injection Hr as -> <-; [reflexivity|]. exfalso. unfold split_at in Hq. cbn [parts] in Hq. rewrite F in Hq. injection Hq as <-.
  apply all_ok_inv in Hy. inversion Hy as [|? ? ? ? _ Hn]; subst. inversion Hn.
Qed.
(** The numbers a line of a matrix can have, and what they set. *)
Inductive Line (p : N) : nat -> list N -> mat -> mat -> Prop :=
| line3 i l ps x y z m : comma_list p l ps [x; y; z] -> Line p i l m (set_row m i (x, y, z))
| line4 i l ps x y z o m : (i < 3)%nat -> comma_list p l ps [x; y; z; o] -> Line p i l m (set_offset (set_row m i (x, y, z)) i o)
| line4_last l ps x y z o m : comma_list p l ps [x; y; z; o] -> Line p 3 l m m.
Lemma lines_errs p : forall ls m i e m' e', matrix_lines p m i ls e = Ok (m', e') -> e <= e'.
Proof.
  induction ls as [|l ls IH]; intros m i e m' e' H; cbn [matrix_lines] in H; [injection H as _ <-; lia|].
  apply bind_inv in H as ((xs, k) & _ & H). cbn [fst snd] in H.
  destruct xs as [|x [|y [|z [|o [|? ?]]]]]; apply IH in H; lia.
Qed.
Lemma lines_inv p l ls m i m' : (i + List.length ls < 4)%nat -> matrix_lines p m i (l :: ls) 0 = Ok (m', 0) -> exists n, Line p i l m n /\ matrix_lines p n (S i) ls 0 = Ok (m', 0).
Proof.
  intros Hi H. cbn [matrix_lines] in H. apply bind_inv in H as ((xs, k) & Hv & H). cbn [fst snd] in H. destruct (values_inv _ _ _ _ Hv) as (ps & Hp).
  destruct xs as [|x [|y [|z [|o [|? ?]]]]]; pose proof (lines_errs _ _ _ _ _ _ _ H); try lia; assert (k = 0) as -> by lia.
  - exists (set_row m i (x, y, z)). split; [now apply line3 with ps|exact H].
  - destruct (i <? 3)%nat eqn:E.
    + eexists. split; [apply (line4 p i l ps x y z o m); [lia|exact Hp]|exact H].
    + assert (i = 3)%nat as -> by lia. eexists. split; [now apply (line4_last p l ps x y z o m)|exact H].
Qed.
(** A matrix accepted without an error is four lines of three or four numbers. *)
Theorem C76_matrix : forall p old s ok m, read_matrix p old s = Ok (mkRd m ok 0) -> s <> [] ->
  ok = true /\ exists l0 l1 l2 l3 m1 m2 m3, s = T"{" ++ l0 ++ T"}{" ++ l1 ++ T"}{" ++ l2 ++ T"}{" ++ l3 ++ T"}"
  /\ Line p 0 l0 old m1 /\ Line p 1 l1 m1 m2 /\ Line p 2 l2 m2 m3 /\ Line p 3 l3 m3 m.
Proof.
  intros p old s ok m H Hs. unfold read_matrix in H. destruct s as [|c s]; [congruence|]. cbn [is_empty] in H. set (t := c :: s) in *.
  destruct (brackets t) as (b, e) eqn:B. apply bind_inv in H as (ls & Hl & H). apply split_spec in Hl as (J & _); [|discriminate].
  destruct (List.length ls =? 4)%nat eqn:L; [|injection H as _ _ E; lia].
  apply bind_inv in H as ((m', e') & Hm & H). cbn [fst snd] in H. assert (H1 := f_equal (fun r => match r with Ok a => rd_val a | _ => m end) H). assert (H2 := f_equal (fun r => match r with Ok a => rd_errs a | _ => 0 end) H).
  assert (H3 := f_equal (fun r => match r with Ok a => rd_ok a | _ => true end) H). cbn [rd_val rd_errs rd_ok] in H1, H2, H3. subst m' e' ok. split; [reflexivity|].
  pose proof (lines_errs _ _ _ _ _ _ _ Hm). assert (e = 0) as -> by lia. apply brackets_inv in B.
  destruct ls as [|l0 [|l1 [|l2 [|l3 [|? ?]]]]]; try discriminate L.
  apply lines_inv in Hm as (m1 & L0 & Hm); [|cbn; lia]. apply lines_inv in Hm as (m2 & L1 & Hm); [|cbn; lia].
  apply lines_inv in Hm as (m3 & L2 & Hm); [|cbn; lia]. apply lines_inv in Hm as (m4 & L3 & Hm); [|cbn; lia].
  cbn [matrix_lines] in Hm. injection Hm as ->. exists l0, l1, l2, l3, m1, m2, m3. split; [|auto]. rewrite B, <- J. cbn [join_with]. rewrite <- !app_assoc. reflexivity.
Qed.
(** Reading ends, whatever the text. *)
Lemma all_ok_ends {A B} (f : A -> res B) l : (forall a, f a <> Loop) -> all_ok f l <> Loop.
Proof.
  intros H. induction l as [|a l IH]; [discriminate|]. cbn [all_ok]. destruct (f a) eqn:E; cbn [bind]; try discriminate; [|now apply H in E].
  destruct (all_ok f l); cbn [bind]; try discriminate. congruence.
Qed.
Lemma c_atof_ends p s : c_atof p s <> Loop.
Proof.
  assert (F : forall a b c d, finish a b c d <> Loop) by (intros a b c d; unfold finish; destruct (scaled b c d); destruct (_ <=? _); discriminate).
  unfold c_atof. destruct (take_sign _). destruct (starts _ _); [discriminate|]. destruct (starts _ _); [discriminate|].
  destruct (if starts _ _ then _ else _) as [((v, k), r)|]; [apply F|]. destruct (mantissa p 10 l) as [((v, k), r)|]; [apply F|discriminate].
Qed.
Lemma atof_ends p s : atof p s <> Loop.
Proof. unfold atof. destruct (to_bytes s); [apply c_atof_ends|discriminate]. Qed.
Lemma values_end p s : read_values p s <> Loop.
Proof.
  unfold read_values. destruct (split_ends (T",") s) as (ps & ->); [discriminate|]. cbn [bind].
  destruct (all_ok (atof p) ps) eqn:E; cbn [bind]; try discriminate. exfalso. exact (all_ok_ends _ _ (atof_ends p) E).
Qed.
Theorem C76_ends : forall p s, (forall old, read_vec p old s <> Loop) /\ (forall w, read_color p w s <> Loop) /\ (forall old, read_colors p old s <> Loop)
  /\ (forall old, read_matrix p old s <> Loop) /\ (forall old, read_rotation p old s <> Loop).
Proof.
  intros p s. repeat split; intros old.
  - unfold read_vec. destruct (is_empty s); [discriminate|]. destruct (brackets s) as (b, e). destruct (read_values p b) as [(xs, k)| | |] eqn:E; cbn [bind fst snd]; try discriminate; [|now apply values_end in E].
    destruct xs as [|x [|y [|z [|? ?]]]]; discriminate.
  - unfold read_color. destruct (is_empty s); [discriminate|]. destruct (read_values p s) as [(xs, k)| | |] eqn:E; cbn [bind fst snd]; try discriminate; [|now apply values_end in E].
    destruct xs as [|x [|y [|z [|? ?]]]]; discriminate.
  - unfold read_colors. destruct (is_empty s); [discriminate|]. destruct (brackets s) as (b, e). destruct (split_ends (T"}{") b) as (ps & ->); [discriminate|]. cbn [bind].
    assert (K : forall ls cs k, add_colors p cs ls k <> Loop).
    { induction ls as [|l ls IH]; intros cs k; cbn [add_colors]; [discriminate|]. destruct (read_values p l) as [(xs, n)| | |] eqn:E; cbn [bind fst snd]; try discriminate; [|now apply values_end in E].
      destruct xs as [|x [|y [|z [|? ?]]]]; apply IH. }
    destruct (add_colors p old ps e) eqn:E; cbn [bind]; try discriminate. now apply K in E.
  - unfold read_matrix. destruct (is_empty s); [discriminate|]. destruct (brackets s) as (b, e). destruct (split_ends (T"}{") b) as (ps & ->); [discriminate|]. cbn [bind].
    destruct (_ =? _)%nat; [|discriminate].
    assert (K : forall ls m i k, matrix_lines p m i ls k <> Loop).
    { induction ls as [|l ls IH]; intros m i k; cbn [matrix_lines]; [discriminate|]. destruct (read_values p l) as [(xs, n)| | |] eqn:E; cbn [bind fst snd]; try discriminate; [|now apply values_end in E].
      destruct xs as [|x [|y [|z [|o [|? ?]]]]]; apply IH. }
    destruct (matrix_lines p old 0 ps e) eqn:E; cbn [bind]; try discriminate. now apply K in E.
  - unfold read_rotation. destruct (brackets s) as (b, e). destruct (split_ends (T"}{") b) as (ps & ->); [discriminate|]. cbn [bind].
    destruct (_ =? _)%nat; [|discriminate].
    assert (K : forall ls m i k, rotation_lines p m i ls k <> Loop).
    { induction ls as [|l ls IH]; intros m i k; cbn [rotation_lines]; [discriminate|]. destruct (read_values p l) as [(xs, n)| | |] eqn:E; cbn [bind fst snd]; try discriminate; [|now apply values_end in E].
      destruct xs as [|x [|y [|z [|? ?]]]]; apply IH. }
    destruct (rotation_lines p old 0 ps e) eqn:E; cbn [bind]; try discriminate. now apply K in E.
Qed.
(** Not every wrong text is refused: words are read as 0 without an error, a matrix with a short line is
    taken with the old values in that row, and a number out of range is undefined. *)
Theorem C76_word_refuted : exists s, read_vec 46 (one, one, one) s = Ok (mkRd (zero, zero, zero) true 0) /\ s = T"{a,b,c}".
Proof. exists (T"{a,b,c}"). split; [vm_compute; reflexivity|reflexivity]. Qed.
Theorem C76_line_refuted : exists s m, read_matrix 46 identity s = Ok (mkRd m true 1) /\ s = T"{5,5}{0,1,0}{0,0,1}{0,0,0}" /\ mU m = (one, zero, zero).
Proof. exists (T"{5,5}{0,1,0}{0,0,1}{0,0,0}"), identity. split; [vm_compute; reflexivity|split; reflexivity]. Qed.
Theorem C76_range_refuted : exists s, read_vec 46 (one, one, one) s = UB.
Proof. exists (T"{1e400,0,0}"). vm_compute. reflexivity. Qed.
Example C76_case : read_vec 46 (one, one, one) (T"{1,2}") = Ok (mkRd (one, one, one) false 1)
  /\ read_vec 46 (one, one, one) (T"{0,0,1") = Ok (mkRd (zero, zero, one) true 1)
  /\ read_vec 46 (one, one, one) (T"{,1,2}") = Ok (mkRd (one, one, one) false 1)
  /\ read_matrix 46 identity (T"{1,0,0}{0,1,0}{0,0,1}") = Ok (mkRd identity false 1).
Proof. refine (conj _ (conj _ (conj _ _))); vm_compute; reflexivity. Qed.
Print Assumptions C76_vector.
Print Assumptions C76_color.
Print Assumptions C76_matrix.
Print Assumptions C76_ends.
Print Assumptions C76_word_refuted.
Print Assumptions C76_line_refuted.
Print Assumptions C76_range_refuted.
