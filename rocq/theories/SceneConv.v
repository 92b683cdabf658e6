(** The values of the members of scene objects: written and read again. *)
From Coq Require Import String List NArith ZArith Bool Lia.
From Coq Require Import ZifyN ZifyNat ZifyBool.
From Verif Require Import Bytes BytesProofs Txt UtfModel UtfSpec UtfProofs StringModel StringSpec StringProofs StringProofs2 NumModel FloatModel FloatProps
  NumProofs ConvModel ConvProps ConvProps2 ConvProps3 UuidModel UuidProps EnumModel VecModel VecProps DmxModel DmxValProps XmlModel XmlSpec XmlProofs
  ObjModel ObjSpec ObjConv ObjAttrs SceneModel SceneSpec.
Import ListNotations.
Open Scope N_scope.
Open Scope list_scope.
Ltac Zify.zify_post_hook ::= idtac.

(** The conversions that occur. *)
Definition simple (k : sconv) : bool :=
  match k with
  | SC (KDmx | KHigh | KColors | KRotation | KOffset) => false
  | SC c => enum_fine c
  | _ => true
  end.
Lemma simple_reso c v : simple (SC c) = true -> write_conv c 0 v = write_conv c 1 v /\ (val_ok c 0 v -> val_ok c 1 v)
  /\ forall old s, read_conv c 0 old s = read_conv c 1 old s.
Proof. destruct c; try discriminate; intros _; (split; [reflexivity|]); (split; [exact (fun H => H)|reflexivity]). Qed.
Lemma uuid_text_write u : uuid_ok u -> uuid_text false u = write_uuid u.
Proof. intros H. unfold write_uuid. now rewrite to_string_text. Qed.
Lemma guid_back u : uuid_ok u -> guid_of (write_uuid u) = Ok u.
Proof. intros H. unfold guid_of. rewrite C44_roundtrip by exact H. reflexivity. Qed.
Lemma sconv_roundtrip k v old : simple k = true -> sval_ok k v ->
  exists t v', swrite_conv k v = Ok t /\ good t /\ sread_conv k old t = Ok v' /\ same_val v v'.
Proof.
  intros S V. destruct k as [c| | | | | |].
  - destruct (simple_reso c v S) as (E1 & E2 & E3). cbn [sval_ok] in V. specialize (E2 V).
    destruct (conv_roundtrip c 1 v old) as (t & v' & ok & W & R & Sm & _ & G & _).
    + unfold bytes_1_4; lia.
    + exact E2.
    + destruct c; try discriminate S; reflexivity.
    + destruct c; try reflexivity; exact S.
    + exists t, v'. cbn [swrite_conv sread_conv]. rewrite E1, E3, R. cbn [bind fst]. auto.
  - destruct v; try contradiction. cbn [sval_ok] in V. exists (write_uuid u), (VUuid u). cbn [swrite_conv sread_conv].
    rewrite guid_back by exact V. split; [reflexivity|]. split; [apply ascii_good, uuid_ascii, V|]. split; [reflexivity|now left].
  - destruct v; try contradiction. cbn [sval_ok] in V. exists s, (VTxt s). cbn [swrite_conv sread_conv]. split; [reflexivity|].
    destruct V as [-> |(u & U & ->)]. { split; [exists []; split; [reflexivity|constructor]|]. split; [reflexivity|now left]. }
    rewrite uuid_text_write by exact U. destruct (uuid_ascii u U) as (A & N0). split; [now apply ascii_good|].
    rewrite (nonempty_is _ N0), guid_back by exact U. split; [reflexivity|now left].
  - destruct v; try contradiction. cbn [sval_ok] in V. destruct (C75_matrix false m (as_mat old) V) as (m' & R & K & _).
    exists (write_matrix 46 false m), (VMat m'). cbn [swrite_conv sread_conv]. split; [reflexivity|]. split.
    + apply ascii_good. unfold write_matrix. destruct (mO m) as ((a, b), c). asc; try apply row_ascii.
    + change point with 46. rewrite R. split; [reflexivity|now right].
  - destruct v; try contradiction. cbn [sval_ok] in V. destruct C67_int_roundtrip as (_ & I8 & _). destruct (int_ascii z) as (A & N0).
    exists (write_int z), (VInt z). cbn [swrite_conv sread_conv]. split; [reflexivity|]. split; [now apply ascii_good|].
    unfold write_int at 1. rewrite (nonempty_is _ N0), I8 by exact V. split; [reflexivity|now left].
  - destruct v; try contradiction. cbn [sval_ok] in V. destruct C67_int_roundtrip as (_ & _ & _ & _ & SZ).
    destruct (int_ascii (Z.of_N n)) as (A & N0). exists (write_int (Z.of_N n)), (VNat n). cbn [swrite_conv sread_conv].
    split. { rewrite to_signed_small; [reflexivity|lia|]. change (2 ^ (Z.of_N 32 - 1))%Z with 2147483648%Z. lia. }
    split; [now apply ascii_good|]. cbn [read_conv]. unfold write_int at 1. rewrite (nonempty_is _ N0).
    assert (E : write_int (Z.of_N n) = write_size n).
    { unfold write_int, write_size, itoa. rewrite to_signed_small; [reflexivity|lia|]. change (2 ^ (Z.of_N 64 - 1))%Z with 9223372036854775808%Z. lia. }
    rewrite E, SZ by exact V. split; [reflexivity|now left].
  - destruct v; try contradiction. destruct V as (G & N0). exists s, (VTxt s). cbn [swrite_conv sread_conv]. split; [reflexivity|]. split; [exact G|].
    rewrite (nonempty_is _ N0). split; [reflexivity|now left].
Qed.
(** Texts of values that are no texts. *)
Lemma sconv_ascii k v t : simple k = true -> sval_ok k v -> swrite_conv k v = Ok t -> match v with VTxt s => t = s | _ => ascii t /\ t <> [] end.
Proof.
  intros S V W. destruct k as [c| | | | | |].
  - destruct (simple_reso c v S) as (E1 & E2 & E3). cbn [sval_ok swrite_conv] in *. rewrite E1 in W. specialize (E2 V).
    assert (E : enum_fine c = true) by (destruct c; try reflexivity; exact S).
    pose proof (conv_ascii c 1 v t E2 E W) as H. destruct v; try exact H; (split; [exact H|]);
    destruct (conv_roundtrip c 1 _ (VUnset) ltac:(unfold bytes_1_4; lia) E2 ltac:(destruct c; try discriminate S; reflexivity) E) as (t' & v' & ok & W' & _ & _ & _ & _ & NE);
    rewrite W in W'; apply Ok_inj in W'; subst t'; apply NE; destruct c; try reflexivity; try discriminate S; contradiction V.
  - destruct v; try contradiction; cbn [swrite_conv] in W; apply Ok_inj in W; subst t. apply uuid_ascii, V.
  - destruct v; try contradiction. cbn [swrite_conv] in W. now apply Ok_inj in W.
  - destruct v; try contradiction. cbn [swrite_conv] in W. apply Ok_inj in W. subst t. split.
    + unfold write_matrix. destruct (mO m) as ((a, b), c). asc; try apply row_ascii.
    + unfold write_matrix. destruct (mO m) as ((a, b), c), (mU m) as ((d, e), f0). discriminate.
  - destruct v; try contradiction. cbn [swrite_conv] in W. apply Ok_inj in W. subst t. apply int_ascii.
  - destruct v; try contradiction. cbn [swrite_conv] in W. apply Ok_inj in W. subst t. apply int_ascii.
  - destruct v; try contradiction. cbn [swrite_conv] in W. now apply Ok_inj in W.
Qed.

(** ** Custom commands *)
Lemma rscan_last P s : forall i, P (skipn i s) = true -> rscan P s i = Some (N.of_nat i).
Proof. intros [|i] H; cbn [rscan]; rewrite H; reflexivity. Qed.
(** A text that ends with something else than a blank. *)
Lemma trim_right_id a x : nlen (a ++ [x]) < two64 -> StringModel.mem blanks x = false -> trim_right (a ++ [x]) = a ++ [x].
Proof.
  intros L B. unfold trim_right, rfind_not_one_of, ustr_rfind_if.
  assert (Ne : a ++ [x] <> []) by (destruct a; discriminate). destruct (a ++ [x]) as [|y r] eqn:E; [congruence|]. rewrite <- E in *.
  rewrite N.min_l by (unfold npos; lia).
  assert (Ln : N.to_nat (nlen (a ++ [x]) - 1) = List.length a) by (unfold nlen; rewrite app_length; cbn [List.length]; lia).
  rewrite rscan_last.
  - rewrite Ln. apply firstn_all2. rewrite app_length. cbn [List.length]. lia.
  - rewrite Ln, skipn_app, skipn_all, Nat.sub_diag. cbn [app skipn head_in]. now rewrite B.
Qed.
(** The last blank in front of a text without blanks. *)
Lemma rfind_blank a b : nlen (a ++ 32 :: b) < two64 -> ~ In 32 b -> tx_rfind (a ++ 32 :: b) T" " npos false = Some (nlen a).
Proof.
  intros L B. unfold tx_rfind. change (T" ") with [32]. pose proof (rfind_occ false (a ++ 32 :: b) [32] npos) as H. cbv iota in H.
  destruct (ustr_rfind (a ++ 32 :: b) [32] npos) as [p|].
  - destruct H as (Lp & (a' & m & b' & E & Lp' & M) & Q). unfold fold in *. rewrite !map_id in M. subst m. f_equal.
    destruct (N.lt_trichotomy p (nlen a)) as [X|[X|X]]; [|exact X|].
    + exfalso. apply (Q (nlen a)); [unfold npos; rewrite nlen_app, nlen_cons in L; lia|exact X|]. exists a, [32], b. auto.
    + exfalso. apply B. assert (E2 : List.length a' = S (List.length a) \/ (S (List.length a) < List.length a')%nat) by (unfold nlen in *; lia).
      assert (E3 : skipn (List.length a') (a ++ 32 :: b) = 32 :: b') by (rewrite E, skipn_app, skipn_all, Nat.sub_diag; reflexivity).
      rewrite skipn_app, skipn_all2 in E3 by lia. replace (List.length a' - List.length a)%nat with (S (List.length a' - S (List.length a))) in E3 by lia.
      cbn [app skipn] in E3. assert (I : In 32 (skipn (List.length a' - S (List.length a)) b)) by (rewrite E3; now left).
      rewrite <- (firstn_skipn (List.length a' - S (List.length a)) b). apply in_or_app. now right.
  - exfalso. apply (H (nlen a)); [unfold npos; rewrite nlen_app, nlen_cons in L; lia|]. exists a, [32], b. auto.
Qed.
(** The first comma; the first "/percent". *)
Lemma find_comma a b : ~ In 44 a -> tx_find (a ++ 44 :: b) T"," 0 false = Some (nlen a).
Proof.
  intros A. unfold tx_find. change (T",") with [44]. pose proof (find_occ false (a ++ 44 :: b) [44] 0) as H. cbv iota in H.
  destruct (ustr_find (a ++ 44 :: b) [44] 0) as [p|].
  - destruct H as (_ & (a' & m & b' & E & Lp & M) & Q). unfold fold in *. rewrite !map_id in M. subst m. f_equal.
    destruct (N.lt_trichotomy p (nlen a)) as [X|[X|X]]; [|exact X|].
    + exfalso. apply A. assert (E3 : skipn (List.length a') (a ++ 44 :: b) = 44 :: b') by (rewrite E, skipn_app, skipn_all, Nat.sub_diag; reflexivity).
      rewrite skipn_app in E3. destruct (skipn (List.length a') a) as [|y r] eqn:K.
      * exfalso. assert (Z : List.length (skipn (List.length a') a) = O) by (now rewrite K). rewrite skipn_length in Z. unfold nlen in *. lia.
      * cbn [app] in E3. injection E3 as -> _. rewrite <- (firstn_skipn (List.length a') a), K. apply in_or_app. right. now left.
    + exfalso. apply (Q (nlen a)); [lia|exact X|]. exists a, [44], b. auto.
  - exfalso. apply (H (nlen a)); [lia|]. exists a, [44], b. auto.
Qed.
(** An occurrence of "/percent" in [a ++ b] where [b] has no slash but perhaps as its first character lies in [a] or at [b]. *)
Lemma percent_in a b x c y : a ++ b = x ++ (47 :: c) ++ y -> ~ In 47 c -> ~ In 47 (tl b) ->
  (exists z, a = x ++ (47 :: c) ++ z) \/ (x = a /\ b = (47 :: c) ++ y) \/
  (exists p q, a = x ++ 47 :: p /\ c = p ++ q /\ q <> [] /\ b = q ++ y).
Proof.
  intros E C B. revert a E. induction x as [|u x IH]; intros a E.
  - destruct a as [|v a]; [right; left; auto|]. cbn [app] in E. injection E as -> E. clear B.
    revert c C E. induction a as [|w a IH]; intros c C E.
    + destruct c as [|d c]; [left; exists []; reflexivity|]. right. right. exists [], (d :: c). cbn [app] in *. split; [reflexivity|]. split; [reflexivity|]. split; [discriminate|exact E].
    + destruct c as [|d c]; [left; exists (w :: a); reflexivity|]. cbn [app] in E. injection E as -> E.
      destruct (IH c ltac:(intros X; apply C; now right) E) as [(z & Z)|[(Z & _)|(p & q & P1 & P2 & P3 & P4)]].
      * left. exists z. cbn [app] in *. injection Z as ->. reflexivity.
      * discriminate Z.
      * right. right. exists (d :: p), q. cbn [app] in *. injection P1 as ->. subst c. auto.
  - destruct a as [|v a].
    + exfalso. apply B. cbn [app] in E. subst b. cbn [tl]. apply in_or_app. right. now left.
    + cbn [app] in E. injection E as -> E. destruct (IH a E) as [(z & Z)|[(Z & Y)|(p & q & P1 & P2 & P3 & P4)]].
      * left. exists z. now rewrite Z.
      * right. left. now rewrite Z.
      * right. right. exists p, q. rewrite P1. auto.
Qed.
Lemma percent_text : T"/percent" = 47 :: T"percent". Proof. reflexivity. Qed.
Lemma no_slash_percent : ~ In 47 T"percent". Proof. vm_compute. intuition congruence. Qed.
(** [f] without "/percent" in front of a text that starts with a comma and has no slash. *)
Lemma no_percent f b : ~ within T"/percent" f -> ~ In 47 b -> tx_find (f ++ 44 :: b) T"/percent" 0 false = None.
Proof.
  intros F B. unfold tx_find. rewrite percent_text. pose proof (find_occ false (f ++ 44 :: b) (47 :: T"percent") 0) as H. cbv iota in H.
  destruct (ustr_find (f ++ 44 :: b) (47 :: T"percent") 0) as [p|]; [|reflexivity]. exfalso.
  destruct H as (_ & (x & m & y & E & _ & M) & _). unfold fold in M. rewrite !map_id in M. subst m.
  destruct (percent_in f (44 :: b) x (T"percent") y E no_slash_percent B) as [(z & Z)|[(_ & Y)|(p' & q & _ & Q & N0 & Y)]].
  - apply F. rewrite percent_text. exists x, z. exact Z.
  - discriminate Y.
  - destruct q as [|w q]; [congruence|]. cbn [app] in Y. injection Y as <- _.
    assert (I : In 44 (T"percent")) by (rewrite Q; apply in_or_app; right; now left). vm_compute in I. intuition congruence.
Qed.
Lemma first_percent f b : ~ within T"/percent" f -> ~ In 47 b -> tx_find (f ++ T"/percent" ++ b) T"/percent" 0 false = Some (nlen f).
Proof.
  intros F B. unfold tx_find. rewrite percent_text. pose proof (find_occ false (f ++ (47 :: T"percent") ++ b) (47 :: T"percent") 0) as H. cbv iota in H.
  destruct (ustr_find (f ++ (47 :: T"percent") ++ b) (47 :: T"percent") 0) as [p|].
  - destruct H as (_ & (x & m & y & E & Lp & M) & _). unfold fold in M. rewrite !map_id in M. subst m. f_equal. subst p.
    destruct (percent_in f ((47 :: T"percent") ++ b) x (T"percent") y E no_slash_percent) as [(z & Z)|[(-> & _)|(p' & q & _ & Q & N0 & Y)]].
    + cbn [app tl]. intros I. apply in_app_or in I as [I|I]; [exact (no_slash_percent I)|exact (B I)].
    + exfalso. apply F. rewrite percent_text. exists x, z. exact Z.
    + reflexivity.
    + exfalso. destruct q as [|w q]; [congruence|]. cbn [app] in Y. injection Y as <- _.
      apply no_slash_percent. rewrite Q. apply in_or_app. right. now left.
  - exfalso. apply (H (nlen f)); [lia|]. exists f, (47 :: T"percent"), b. auto.
Qed.
Lemma left_app f b : good f -> StringModel.left (f ++ b) (nlen f) = f.
Proof.
  intros (cs & -> & F). unfold StringModel.left, substr. cbn [N.to_nat skipn]. unfold nlen. rewrite Nat2N.id, firstn_app, Nat.sub_diag, firstn_all. cbn [firstn].
  rewrite app_nil_r. apply trim_right_enc. eapply Forall_impl; [|exact F]. cbv beta. tauto.
Qed.
Lemma fl_marks x : ~ In 32 (fl_text point x) /\ ~ In 47 (fl_text point x) /\
  exists a l, fl_text point x = a ++ [l] /\ StringModel.mem blanks l = false.
Proof.
  set (mark := fun c => ((48 <=? c) && (c <=? 57)) || (c =? 45) || (c =? 46) || ((97 <=? c) && (c <=? 122))).
  assert (D : forall l, Forall digit l -> forallb mark l = true).
  { intros l F. apply forallb_forall. intros c I. rewrite Forall_forall in F. specialize (F c I). unfold digit in F. unfold mark. lia. }
  assert (H0 : forallb mark (fl_text point x) = true).
  { destruct x as [neg u|neg|neg]; [|destruct neg; vm_compute; reflexivity..]. cbn [fl_text]. rewrite !forallb_app. cbn [forallb].
    replace (forallb mark (sign_text neg)) with true by (destruct neg; reflexivity). rewrite (D _ (proj1 (dec_spec _))), (D _ (six_digits _)). reflexivity. }
  assert (H : forall c, In c (fl_text point x) -> (48 <= c <= 57) \/ c = 45 \/ c = 46 \/ 97 <= c <= 122).
  { intros c I. rewrite forallb_forall in H0. specialize (H0 c I). unfold mark in H0. lia. }
  split; [intros I; specialize (H _ I); lia|]. split; [intros I; specialize (H _ I); lia|].
  destruct (exists_last (fl_nonempty x)) as (a & l & E). exists a, l. split; [exact E|]. change 46 with point in E.
  specialize (H l). rewrite E in H. specialize (H ltac:(apply in_or_app; right; now left)).
  unfold StringModel.mem. apply not_true_is_false. intros M. apply existsb_exists in M as (b & Ib & Eb). apply N.eqb_eq in Eb. subst b. vm_compute in Ib.
  repeat destruct Ib as [Ib|Ib]; try lia; destruct Ib.
Qed.

Lemma command_roundtrip vs vs0 : command_ok vs -> exists t vs', command_text vs = Ok t /\ good t /\ read_command t vs0 = Ok vs' /\
  forall g, same_val (if String.eqb g "fValue" || String.eqb g "fChannelFunction" || String.eqb g "fIsPercentage" then get g vs else get g vs0) (get g vs').
Proof.
  intros (f & p & x & Ef & Ep & Ex & G & L & V & P & C). unfold command_text. rewrite Ef, Ep, Ex.
  destruct (fl_marks x) as (M1 & M2 & a & l & E & B). destruct (kept_read x V) as (y & Ay & Ky). pose proof (fl_len x V) as Lx.
  set (pre := f ++ (if p then T"/percent,f" else T",f")). set (t := f ++ (if p then T"/percent,f " else T",f ") ++ fl_text point x).
  assert (Et : t = pre ++ 32 :: fl_text point x).
  { unfold t, pre. rewrite <- app_assoc. f_equal. destruct p; reflexivity. }
  assert (Lt : nlen t < two64).
  { unfold t. rewrite !nlen_app. assert (nlen (if p then T"/percent,f " else T",f ") <= 20) by (destruct p; vm_compute; discriminate).
    change point with 46 in *. unfold two64. change (2 ^ 62) with 4611686018427387904 in L. lia. }
  exists t. eexists. split; [reflexivity|]. split.
  { destruct G as (cs & -> & F). destruct (ascii_good (if p then T"/percent,f " else T",f ") ltac:(destruct p; lit)) as (c2 & E2 & F2).
    destruct (ascii_good (fl_text 46 x) (fl_ascii x)) as (c3 & E3 & F3). exists (cs ++ c2 ++ c3). split.
    - unfold t. rewrite E2. change point with 46. rewrite E3. unfold enc16. now rewrite !flat_map_app.
    - apply Forall_app. split; [exact F|]. apply Forall_app. now split. }
  assert (T1 : trim_right t = t).
  { rewrite Et, E. rewrite app_comm_cons, app_assoc. apply trim_right_id; [|exact B]. rewrite <- app_assoc, <- app_comm_cons, <- E, <- Et. exact Lt. }
  assert (T2 : tx_rfind t T" " npos false = Some (nlen pre)) by (rewrite Et; apply rfind_blank; [rewrite <- Et; exact Lt|exact M1]).
  assert (T3 : StringModel.right t (nlen t - nlen pre - 1) = fl_text point x).
  { unfold StringModel.right. assert (Ln : nlen t = nlen pre + (nlen (fl_text point x) + 1)) by (rewrite Et, nlen_app, nlen_cons; lia).
    destruct (nlen t <=? nlen t - nlen pre - 1) eqn:K; [lia|]. rewrite Et at 3. replace (N.to_nat _) with (List.length (pre ++ [32])) by (unfold nlen in *; rewrite app_length; cbn [List.length]; lia).
    replace (pre ++ 32 :: fl_text point x) with ((pre ++ [32]) ++ fl_text point x) by (rewrite <- app_assoc; reflexivity).
    rewrite skipn_app, skipn_all, Nat.sub_diag. cbn [app skipn]. destruct (ascii_good (fl_text 46 x) (fl_ascii x)) as (c3 & E3 & F3).
    change point with 46. rewrite E3. apply trim_left_enc. eapply Forall_impl; [|exact F3]. cbv beta. tauto. }
  assert (T4 : match tx_find t T"/percent" 0 false with
    | Some q => (true, StringModel.left t q)
    | None => (false, StringModel.left t (match tx_find t T"," 0 false with Some q => q | None => npos end))
    end = (p, f)).
  { unfold t. destruct p.
    - change (T"/percent,f ") with (T"/percent" ++ T",f "). rewrite <- app_assoc. rewrite first_percent; [|exact P|].
      + f_equal. now apply left_app.
      + intros I. apply in_app_or in I as [I|I]; [vm_compute in I; intuition congruence|exact (M2 I)].
    - change (T",f ") with (44 :: T"f "). rewrite <- app_comm_cons. rewrite no_percent; [|exact P|].
      + rewrite find_comma by (now apply C). f_equal. now apply left_app.
      + intros I. apply in_app_or in I as [I|I]; [vm_compute in I; intuition congruence|exact (M2 I)]. }
  unfold read_command. rewrite T4. cbv iota beta. rewrite T1, T2, T3. change point with 46 in *. rewrite Ay. cbn [bind]. split; [reflexivity|].
  intros g. rewrite !get_put. destruct (String.eqb g "fValue") eqn:G1; [apply String.eqb_eq in G1; subst g; rewrite Ex; now right|].
  destruct (String.eqb g "fChannelFunction") eqn:G2; [apply String.eqb_eq in G2; subst g; rewrite Ef; now left|].
  destruct (String.eqb g "fIsPercentage") eqn:G3; [apply String.eqb_eq in G3; subst g; rewrite Ep; now left|]. now left.
Qed.
