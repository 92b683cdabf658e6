(** C96: the bytes of a scene description. *)
From Coq Require Import String List NArith ZArith Bool Lia.
From Coq Require Import ZifyN ZifyNat ZifyBool.
From Verif Require Import Bytes BytesProofs Txt UtfModel StringModel StringProofs NumModel NumProofs FloatModel ConvModel UuidModel UuidProps EnumModel VecModel VecProps
  XmlModel XmlSpec XmlProofs ObjModel ObjSpec ObjConv ObjAttrs ObjTree SceneModel SceneSpec SceneConv SceneTree SceneProofs SceneCheck SceneProps SceneMore SceneOther.
Import ListNotations.
Open Scope N_scope.
Open Scope list_scope.
Ltac Zify.zify_post_hook ::= idtac.

(** ** Empty texts are not in the file *)
Fixpoint bare (k : node) : node :=
  match k with Elem n a kids => Elem n a (match kids with [Text []] => [] | _ => map bare kids end) | _ => k end.
Definition bares (kids : list node) : list node := match kids with [Text []] => [] | _ => map bare kids end.
Lemma bare_elem n a kids : bare (Elem n a kids) = Elem n a (bares kids).
Proof. reflexivity. Qed.
Lemma bares_cases kids : bares kids = map bare kids \/ kids = [Text []] /\ bares kids = [].
Proof. destruct kids as [|[n a k|[|]|v|v|v|v] [|y r]]; auto. Qed.
Lemma child_bare n kids : child_named n (bares kids) = match child_named n kids with Some k => Some (bare k) | None => None end.
Proof.
  destruct (bares_cases kids) as [-> |(-> & ->)]; [|reflexivity]. induction kids as [|[m a k|v|v|v|v|v] kids IH]; cbn [map bare child_named]; try exact IH; [reflexivity|]. now destruct (eqb_bytes m n).
Qed.
Lemma elements_bare kids : elements (bares kids) = do els <- elements kids; Ok (map (fun e => (fst e, bare (snd e))) els).
Proof.
  destruct (bares_cases kids) as [-> |(-> & ->)]; [|reflexivity]. induction kids as [|[m a k|v|v|v|v|v] kids IH]; cbn [map bare elements]; try exact IH; [reflexivity|].
  destruct (text_of m); try reflexivity. cbn [bind]. rewrite IH. destruct (elements kids); reflexivity.
Qed.
Lemma text_bare kids : node_text (bares kids) = node_text kids.
Proof.
  destruct (bares_cases kids) as [-> |(-> & ->)]; [|reflexivity]. unfold node_text. replace (get_text (map bare kids)) with (get_text kids); [reflexivity|].
  induction kids as [|[m a k|v|v|v|v|v] kids IH]; cbn [map bare get_text]; try reflexivity. exact IH.
Qed.
Lemma items_bare attrs kids its : forall vs, read_items attrs (bares kids) its vs = read_items attrs kids its vs.
Proof.
  induction its as [|r its IH]; intros vs; [reflexivity|]. cbn [read_items]. assert (read_item attrs (bares kids) r vs = read_item attrs kids r vs) as ->.
  { destruct r; cbn [read_item]; try reflexivity; [|now rewrite text_bare..]. rewrite child_bare. destruct (child_named n kids) as [[m a ks|?|?|?|?|?]|]; try reflexivity. cbn [bare]. fold (bares ks). now rewrite text_bare. }
  destruct (read_item attrs kids r vs); try reflexivity. cbn [bind]. apply IH.
Qed.
Lemma uuid_bare n : has_uuid (bare n) = has_uuid n.
Proof. now destruct n. Qed.
Lemma kinds_bare rd rd' u kinds els : Forall (fun e => forall c, rd' c (bare (snd e)) = rd c (snd e)) els ->
  read_kinds rd' u kinds (map (fun e => (fst e, bare (snd e))) els) = read_kinds rd u kinds els.
Proof.
  induction 1 as [|(name, n) els H F IH]; [reflexivity|]. cbn [map fst snd read_kinds] in *. rewrite IH, uuid_bare. destruct (skind_of kinds name); [|reflexivity]. now rewrite H.
Qed.
Lemma depth_kid kids d k : (fold_right Nat.max O (map depth kids) <= d)%nat -> In k kids -> (depth k <= d)%nat.
Proof. intros D I. pose proof (in_max kids k I). lia. Qed.
Lemma read_bare : forall d d' c n, (depth n <= d)%nat -> (depth (bare n) <= d')%nat -> read_sobj d' c (bare n) = read_sobj d c n.
Proof.
  induction d as [|d IH]; intros d' c n D D'; [destruct n; [cbn [depth] in D; lia|destruct d'; reflexivity..]|]. destruct n as [m a kids|?|?|?|?|?]; try (destruct d'; reflexivity).
  rewrite bare_elem in *. destruct d' as [|d']; [cbn [depth] in D'; lia|]. cbn [read_sobj depth] in *. apply le_S_n in D, D'. rewrite items_bare.
  destruct (read_items a kids (sreads c) (sfields c)) as [vs| | |]; try reflexivity. cbn [bind].
  assert (FROM : forall s ks, (fold_right Nat.max O (map depth ks) <= d)%nat -> (fold_right Nat.max O (map depth (bares ks)) <= d')%nat ->
    match rs_mode s with
    | RAll => do els <- elements (bares ks); read_kinds (read_sobj d') false (rs_kinds s) els
    | RAllUuid => do els <- elements (bares ks); read_kinds (read_sobj d') true (rs_kinds s) els
    | ROpt | ROne => read_first (read_sobj d') (rs_kinds s) (bares ks)
    end = match rs_mode s with
    | RAll => do els <- elements ks; read_kinds (read_sobj d) false (rs_kinds s) els
    | RAllUuid => do els <- elements ks; read_kinds (read_sobj d) true (rs_kinds s) els
    | ROpt | ROne => read_first (read_sobj d) (rs_kinds s) ks
    end).
  { intros s ks DK DK'. assert (SAME : forall k, In k ks -> bares ks = map bare ks -> forall c, read_sobj d' c (bare k) = read_sobj d c k).
    { intros k I E x. apply IH; [exact (depth_kid _ _ _ DK I)|]. apply (depth_kid (bares ks)); [exact DK'|]. rewrite E. now apply in_map. }
    assert (ALL : forall u, (do els <- elements (bares ks); read_kinds (read_sobj d') u (rs_kinds s) els) = (do els <- elements ks; read_kinds (read_sobj d) u (rs_kinds s) els)).
    { intros u. rewrite elements_bare. destruct (elements ks) as [els| | |] eqn:E; try reflexivity. cbn [bind]. apply kinds_bare. destruct (bares_cases ks) as [B|(-> & _)]; [|cbn in E; apply Ok_inj in E; subst; constructor].
      eapply Forall_impl; [|exact (elements_in _ _ E)]. intros e (I & _) x. now apply SAME. }
    assert (ONE : read_first (read_sobj d') (rs_kinds s) (bares ks) = read_first (read_sobj d) (rs_kinds s) ks).
    { unfold read_first. destruct (rs_kinds s) as [|(nm, x) ?]; [reflexivity|]. rewrite child_bare. destruct (child_named (txt nm) ks) as [k|] eqn:E; [|reflexivity]. destruct (child_elem _ _ _ E) as (I & _).
      destruct (bares_cases ks) as [B|(-> & _)]; [|discriminate E]. now rewrite SAME. }
    destruct (rs_mode s); auto. }
  assert (SL : forall ss, sread_slots (read_sobj d') ss (bares kids) = sread_slots (read_sobj d) ss kids); [|now rewrite SL].
  induction ss as [|s ss IHs]; [reflexivity|]. cbn [sread_slots]. rewrite IHs. assert (sread_slot (read_sobj d') s (bares kids) = sread_slot (read_sobj d) s kids) as ->; [|reflexivity].
  unfold sread_slot. destruct (rs_container s) as [co|]; [|now rewrite FROM]. rewrite child_bare. destruct (child_named co kids) as [k|] eqn:E; [|reflexivity]. destruct (child_elem _ _ _ E) as (I & a' & ks & ->).
  rewrite bare_elem. rewrite FROM; [reflexivity| |].
  - pose proof (depth_kid _ _ _ D I) as Q. cbn [depth] in Q. lia.
  - destruct (bares_cases kids) as [B|(-> & _)]; [|discriminate E]. rewrite B in D'. pose proof (depth_kid _ _ _ D' (in_map bare _ _ I)) as Q. rewrite bare_elem in Q. cbn [depth] in Q. lia.
Qed.
Lemma node_bare c n : sread_node c (bare n) = sread_node c n.
Proof. unfold sread_node. now apply read_bare. Qed.
Lemma key_bare n : key_of (bare n) = key_of n.
Proof. now destruct n. Qed.
Lemma aux_bare els : forall r, read_aux (map (fun e => (fst e, bare (snd e))) els) r = read_aux els r.
Proof.
  induction els as [|(name, n) els IH]; intros r; [reflexivity|]. cbn [map fst snd read_aux]. rewrite !node_bare, key_bare.
  match goal with |- bind ?x _ = bind ?x _ => destruct x; try reflexivity end. cbn [bind]. apply IH.
Qed.
Lemma list_bare u kinds ks : (do els <- elements (bares ks); read_kinds sread_node u kinds els) = (do els <- elements ks; read_kinds sread_node u kinds els).
Proof.
  rewrite elements_bare. destruct (elements ks) as [els| | |]; try reflexivity. cbn [bind]. apply kinds_bare. apply Forall_forall. intros e _ c. apply node_bare.
Qed.
Lemma raw_bare n : read_raw (bare n) = read_raw n.
Proof.
  destruct n as [m a kids|?|?|?|?|?]; try reflexivity. rewrite bare_elem. cbn [read_raw].
  assert (in_child T"UserData" (bares kids) [] read_data = in_child T"UserData" kids [] read_data) as ->.
  { unfold in_child. rewrite child_bare. destruct (child_named T"UserData" kids) as [[? ? ks|?|?|?|?|?]|]; try reflexivity. cbn [bare]. fold (bares ks). cbn [read_data]. apply list_bare. }
  destruct (in_child T"UserData" kids [] read_data) as [data| | |]; try reflexivity. cbn [bind]. unfold in_child at 1 4. rewrite child_bare. destruct (child_named T"Scene" kids) as [[? ? sk|?|?|?|?|?]|]; try reflexivity.
  rewrite bare_elem. cbv beta iota.
  match goal with |- bind ?x _ = bind ?y _ => assert (x = y) as -> end.
  { unfold in_child. rewrite child_bare. destruct (child_named T"AUXData" sk) as [[? ? ks|?|?|?|?|?]|]; try reflexivity. rewrite bare_elem. rewrite elements_bare. destruct (elements ks) as [els| | |]; try reflexivity. cbn [bind]. apply aux_bare. }
  match goal with |- bind ?x _ = _ => destruct x as [r| | |]; try reflexivity end. cbn [bind].
  match goal with |- bind ?x _ = bind ?y _ => assert (x = y) as -> end; [|reflexivity].
  unfold in_child. rewrite child_bare. destruct (child_named T"Layers" sk) as [[? ? ks|?|?|?|?|?]|]; try reflexivity. rewrite bare_elem. apply list_bare.
Qed.
Lemma scene_bare same_key n : read_scene same_key (bare n) = read_scene same_key n.
Proof. unfold read_scene. now rewrite raw_bare. Qed.

(** ** Nodes whose texts survive *)
Definition attr_calm (a : list N * list N) : Prop := xml_name (fst a) /\ ~ In 0 (snd a) /\ ~ In 13 (snd a).
Definition text_calm (v : list N) : Prop := ~ In 0 v /\ ~ In 13 v /\ (v = [] \/ ~ Forall XmlSpec.white v).
Inductive calm : node -> Prop :=
| calm_elems n a kids : xml_name n -> NoDup (map fst a) -> Forall attr_calm a -> Forall calm kids -> calm (Elem n a kids)
| calm_text n a v : xml_name n -> NoDup (map fst a) -> Forall attr_calm a -> text_calm v -> calm (Elem n a [Text v]).
Section CalmInd.
Variable P : node -> Prop.
Hypothesis H1 : forall n a kids, xml_name n -> NoDup (map fst a) -> Forall attr_calm a -> Forall calm kids -> Forall P kids -> P (Elem n a kids).
Hypothesis H2 : forall n a v, xml_name n -> NoDup (map fst a) -> Forall attr_calm a -> text_calm v -> P (Elem n a [Text v]).
Fixpoint calm_induction (n : node) (C : calm n) : P n :=
  match C in calm n return P n with
  | calm_elems n a kids A B D F => H1 n a kids A B D F ((fix go (l : list node) (F : Forall calm l) : Forall P l :=
      match F in Forall _ l return Forall P l with Forall_nil _ => Forall_nil P | @Forall_cons _ _ x l C F => Forall_cons x (calm_induction x C) (go l F) end) kids F)
  | calm_text n a v A B D V => H2 n a v A B D V
  end.
End CalmInd.
Lemma calm_tree n : calm n -> tree n.
Proof.
  assert (A : forall a, Forall attr_calm a -> Forall (fun a => xml_name (fst a) /\ ~ In 0 (snd a)) a) by (intros a F; eapply Forall_impl; [|exact F]; unfold attr_calm; tauto).
  induction 1 as [n a kids X N F C IH|n a v X N F V] using calm_induction; constructor; auto. constructor; [|constructor]. constructor. apply V.
Qed.
Lemma calm_elem n : calm n -> exists m a k, n = Elem m a k.
Proof. intros C. inversion C; eauto. Qed.
Lemma calm_norm n : calm n -> norm n = bare n.
Proof.
  assert (A : forall a, Forall attr_calm a -> map nl_attr a = a).
  { intros a F. induction F as [|(x, v) a (_ & _ & Q) F IH]; [reflexivity|]. cbn [map]. rewrite IH. f_equal. unfold nl_attr. cbn [fst snd] in *. now rewrite nl_no_cr. }
  induction 1 as [n a kids X N F C IH|n a v X N F V] using calm_induction; rewrite norm_elem, bare_elem, (A a F).
  - f_equal. replace (bares kids) with (map bare kids) by (destruct (bares_cases kids) as [-> |(-> & _)]; [reflexivity|inversion C as [|? ? C1 _]; inversion C1]).
    clear X N F. induction C as [|k kids C1 C2 IHk]; [reflexivity|]. inversion IH as [|? ? I1 I2]; subst. rewrite norms_node by (destruct (calm_elem k C1) as (? & ? & ? & ->); discriminate).
    rewrite I1, (IHk I2). reflexivity.
  - f_equal. cbn [norms app]. destruct V as (_ & Q & [-> |W]); [reflexivity|]. rewrite flush_text by exact W. rewrite nl_no_cr by exact Q. destruct v; [exfalso; apply W; constructor|reflexivity].
Qed.
Theorem calm_file n : calm n -> parse (write_buffer [n]) = if 1 + N.of_nat (height n) <? 100 then DOk [Decl declaration; bare n] else DErr EDepth.
Proof. intros C. destruct (calm_elem n C) as (m & a & k & ->). rewrite (parse_root m a k (calm_tree _ C)). now rewrite calm_norm. Qed.

(** ** What is written is such a node *)
Definition marked (t : list N) : Prop := exists x, In x t /\ 32 < x.
Lemma marked_white t : marked t -> ~ Forall XmlSpec.white t.
Proof. intros (x & I & L) F. rewrite Forall_forall in F. specialize (F x I). unfold XmlSpec.white in F. lia. Qed.
Lemma marked_l a b : marked a -> marked (a ++ b).
Proof. intros (x & I & L). exists x. split; [apply in_or_app; now left|exact L]. Qed.
Lemma int_marked z : marked (int_text z).
Proof.
  destruct (int_text_chars z) as (F & E). destruct (int_text z) as [|x t]; [congruence|]. exists x. split; [now left|]. inversion F as [|? ? D _]; subst. unfold digit in D. lia.
Qed.
Lemma fl_marked x : marked (fl_text 46 x).
Proof. destruct (fl_marks x) as (_ & _ & a & l & E & _). destruct x as [neg u|neg|neg]; [|destruct neg; exists 110; (split; [cbn; tauto|lia])..]. exists 46. split; [|lia]. cbn [fl_text]. apply in_or_app. right. apply in_or_app. right. now left. Qed.
Definition enum_marked (k : sconv) : bool :=
  match k with SC (KEnum t) => forallb (fun v => existsb (fun x => 32 <? x) (enum_write t v)) (et_values t) | _ => in_use k end.
Lemma chk_marked c : forallb (fun e => enum_marked (snd (fst e))) (flat_map entry (swrites c)) = true.
Proof. destruct c; vm_compute; reflexivity. Qed.
Lemma sconv_marked k v t : enum_marked k = true -> sval_ok k v -> swrite_conv k v = Ok t -> (forall s, v <> VTxt s) -> marked t.
Proof.
  intros U V W NT. destruct k as [c| | | | | |]; cbn [swrite_conv] in W.
  - cbn [sval_ok] in V. destruct c; try discriminate U; destruct v; try contradiction V; cbn [write_conv] in W; apply Ok_inj in W; subst t.
    all: try (exfalso; now apply (NT s)).
    all: try apply int_marked.
    all: try apply fl_marked.
    + destruct v as ((x, y), z). unfold write_color. apply marked_l, fl_marked.
    + destruct v as ((x, y), z). exists 123. split; [now left|lia].
    + destruct b; (exists 116 + exists 102); (split; [now left|lia]).
    + cbn [enum_marked] in U. rewrite forallb_forall in U. cbn [val_ok] in V. specialize (U n V). apply existsb_exists in U as (x & I & L). exists x. split; [exact I|lia].
  - destruct v; try contradiction. apply Ok_inj in W. subst t. cbn [sval_ok] in V. rewrite <- uuid_text_write by exact V. exists 45. split; [|lia]. unfold uuid_text. cbv zeta. apply in_or_app. right. now left.
  - destruct v; try contradiction. exfalso. now apply (NT s).
  - destruct v; try contradiction. apply Ok_inj in W. subst t. exists 123. split; [|lia]. unfold write_matrix. destruct (mU m) as ((a, b), c). now left.
  - destruct v; try contradiction. apply Ok_inj in W. subst t. apply int_marked.
  - destruct v; try contradiction. apply Ok_inj in W. subst t. apply int_marked.
  - destruct v; try contradiction. exfalso. now apply (NT s).
Qed.
Lemma enc_clean k v : simple k = true -> sval_ok k v -> (forall s, v = VTxt s -> ~ In 13 s) -> ~ In 0 (enc k v) /\ ~ In 13 (enc k v).
Proof.
  intros S V Q. destruct (enc_ok k v S V) as (s & W & G & B & _ & _). pose proof (sconv_ascii k v s S V W) as A.
  assert (N : ~ In 13 s).
  { destruct v; try (destruct A as (A & _); intros I; unfold ascii in A; rewrite Forall_forall in A; specialize (A _ I); lia). subst s. now apply Q. }
  destruct (no_cr_bytes s _ G B N). auto.
Qed.
Lemma white_text b s : Forall XmlSpec.white b -> ~ In 13 b -> text_of b = Ok s -> s = b.
Proof.
  intros F N E. rewrite ascii_text in E; [now apply Ok_inj in E|]. apply Forall_forall. intros x I. rewrite Forall_forall in F. specialize (F x I). unfold XmlSpec.white in F. assert (x <> 13) by (intros ->; exact (N I)). lia.
Qed.
Lemma enc_calm k v : simple k = true -> enum_marked k = true -> sval_ok k v -> (forall s, v = VTxt s -> ~ In 13 s /\ (s = [] \/ ~ Forall XmlSpec.white s)) -> text_calm (enc k v).
Proof.
  intros S U V Q. destruct (enc_clean k v S V) as (Z & C); [intros s E; now apply Q|]. split; [exact Z|]. split; [exact C|]. destruct (white_dec (enc k v)) as [F|F]; [left|now right].
  destruct (enc_ok k v S V) as (s & W & G & B & TX & _). pose proof (white_text _ _ F C TX) as E. pose proof (sconv_ascii k v s S V W) as A. rewrite <- E in F |- *.
  assert (NT : (forall x, v <> VTxt x) -> s = []) by (intros NT; exfalso; exact (marked_white _ (sconv_marked k v s U V W NT) F)).
  destruct v; try (apply NT; discriminate). subst s0. destruct (Q s eq_refl) as (_ & [H|H]); [exact H|contradiction].
Qed.
Lemma command_calm vs : command_ok vs -> (forall f, get "fChannelFunction" vs = VTxt f -> ~ In 13 f) -> text_calm (enc_command vs).
Proof.
  intros C Q. destruct (enc_command_ok vs C) as (s & W & G & B & TX). destruct C as (f & p & x & Ef & Ep & Ex & _). unfold command_text in W. rewrite Ef, Ep, Ex in W. apply Ok_inj in W.
  assert (N : ~ In 13 s).
  { rewrite <- W. intros I. apply in_app_or in I as [I|I]; [exact (Q f Ef I)|]. apply in_app_or in I as [I|I]; [destruct p; vm_compute in I; intuition congruence|].
    pose proof (fl_ascii x) as A. unfold ascii in A. rewrite Forall_forall in A. specialize (A _ I). lia. }
  destruct (no_cr_bytes s _ G B N) as (N1 & N2). split; [exact N2|]. split; [exact N1|]. right. intros F. pose proof (white_text _ _ F N1 TX) as E. rewrite <- E in F. revert F. apply marked_white. rewrite <- W. exists 44. split; [|lia].
  apply in_or_app. right. destruct p; cbn; tauto.
Qed.
Lemma entry_marked c it : In it (swrites c) -> forall f k w, In (f, k, w) (entry it) -> enum_marked k = true.
Proof. intros I f k w E. pose proof (chk_marked c) as K. rewrite forallb_forall in K. apply (K (f, k, w)). apply in_flat_map. eauto. Qed.
Lemma chk_xml_names c : name_chk (sname c) && forallb name_chk (flat_map attr_names (swrites c) ++ flat_map (kid_names (sslots c)) (swrites c)) = true.
Proof. destruct c; vm_compute; reflexivity. Qed.
Lemma height_le n a kids h : (forall k, In k kids -> (height k <= h)%nat) -> (height (Elem n a kids) <= S h)%nat.
Proof.
  intros H. destruct kids as [|k r]; [cbn; lia|]. rewrite height_elem. apply le_n_S. revert H. generalize (k :: r) as l. induction l as [|x l IH]; intros H; [cbn; lia|]. cbn [heights].
  assert (height x <= h)%nat by (apply H; now left). assert (heights l <= h)%nat by (apply IH; intros y I; apply H; now right). lia.
Qed.
Lemma attrs_calm c vs : members_ok c vs -> texts_ok c vs -> Forall attr_calm (the_attrs c vs) /\ NoDup (map fst (the_attrs c vs)).
Proof.
  intros (M & _) TX. pose proof (chk_xml_names c) as NC. apply andb_prop in NC as (_ & NC). rewrite forallb_app in NC. apply andb_prop in NC as (NC & _). rewrite forallb_forall in NC. split.
  - apply Forall_forall. intros (a, b) I. unfold the_attrs in I. apply in_flat_map in I as (it & I & J). destruct it as [a' f k w| | | |]; try destruct J. cbn [out_attrs] in J.
    destruct (SceneModel.written w (get f vs)); [|destruct J]. destruct J as [[= <- <-]|[]]. destruct (entry_in c _ I f k w ltac:(now left)) as (JJ & S). destruct (M f k w JJ) as (V & _). split; [|split].
    + apply name_chk_ok, NC. apply in_flat_map. eexists. split; [exact I|now left].
    + apply enc_clean; [exact S|exact V|]. intros s E. exact (proj1 (TX f s E)).
    + apply enc_clean; [exact S|exact V|]. intros s E. exact (proj1 (TX f s E)).
  - pose proof (chk_items c) as K. rewrite !andb_true_iff in K. destruct K as ((((D & _) & _) & _) & _). apply distinct_nodup in D. unfold the_attrs. revert D. generalize (swrites c) as l.
    induction l as [|it l IH]; intros D; [constructor|]. cbn [flat_map] in *. rewrite map_app. destruct it as [a f k w| | | |]; cbn [attr_names out_attrs app map] in *; try now apply IH.
    inversion D as [|? ? D1 D2]; subst. destruct (SceneModel.written w (get f vs)); cbn [map fst app]; [|now apply IH]. constructor; [|now apply IH]. intros I. apply D1. clear -I.
    apply in_map_iff in I as ((x, b) & E & I). cbn [fst] in E. subst x. apply in_flat_map in I as (it & I & J). apply in_flat_map. exists it. split; [exact I|]. destruct it as [a' f' k' w'| | | |]; try destruct J. cbn [out_attrs] in J.
    destruct (SceneModel.written w' (get f' vs)); [|destruct J]. destruct J as [[= <- <-]|[]]. now left.
Qed.
Definition low_calm (h : nat) (n : node) : Prop := calm n /\ (height n <= h)%nat.
Lemma kids_calm c vs kss nss h : members_ok c vs -> texts_ok c vs -> existsb is_own (swrites c) = false -> (forall i, Forall (low_calm h) (nth i nss [])) ->
  Forall (low_calm (S h)) (the_kids c vs kss nss).
Proof.
  intros (M & _) TX NO F. pose proof (chk_xml_names c) as NC. apply andb_prop in NC as (_ & NC). rewrite forallb_app in NC. apply andb_prop in NC as (_ & NC). rewrite forallb_forall in NC.
  apply Forall_forall. intros n I. unfold the_kids in I. apply in_flat_map in I as (it & I & J).
  assert (NAME : forall x, In x (kid_names (sslots c) it) -> xml_name x) by (intros x K; apply name_chk_ok, NC; apply in_flat_map; eauto).
  assert (OWN : is_own it = false) by (destruct (is_own it) eqn:E; [|reflexivity]; assert (existsb is_own (swrites c) = true) by (apply existsb_exists; eauto); congruence).
  destruct it as [a f k w|m f k w|f k| |i co e d]; try discriminate OWN; cbn [out_kids] in J; [destruct J| |].
  - destruct (SceneModel.written w (get f vs)); [|destruct J]. destruct J as [<- |[]]. destruct (entry_in c _ I f k w ltac:(now left)) as (JJ & S). destruct (M f k w JJ) as (V & _). split; [|cbn; lia].
    apply calm_text; [apply NAME; now left|constructor|constructor|]. apply enc_calm; [exact S|exact (entry_marked c _ I f k w ltac:(now left))|exact V|]. intros s E. destruct (TX f s E) as (Q1 & Q2). split; [exact Q1|]. apply Q2. eexists. split; [exact I|reflexivity].
  - assert (EL : forall x ns, In x (kid_names (sslots c) (WSlot i (Some x) e d)) -> xml_name x -> Forall (low_calm h) ns -> low_calm (S h) (Elem x [] ns)).
    { intros x ns _ X G. split; [apply calm_elems; [exact X|constructor|constructor|]; eapply Forall_impl; [|exact G]; now intros ? (? & _)|]. apply height_le. intros y Iy. rewrite Forall_forall in G. exact (proj2 (G y Iy)). }
    specialize (F i). destruct (nth i kss []) as [|o l]; destruct co as [x|].
    + destruct e; [|destruct J]. destruct J as [<- |[]]. apply EL; [now left|apply NAME; now left|constructor].
    + destruct J.
    + destruct J as [<- |[]]. apply EL; [now left|apply NAME; now left|exact F].
    + rewrite Forall_forall in F. destruct (F n J) as (A & B). split; [exact A|lia].
Qed.
Fixpoint levels_in (l : list sobj) : nat := match l with [] => O | k :: r => Nat.max (slevels k) (levels_in r) end.
Fixpoint levels_of (l : list (list sobj)) : nat := match l with [] => O | ks :: r => Nat.max (levels_in ks) (levels_of r) end.
Lemma slevels_eq c vs kss : slevels (SObj c vs kss) = S (levels_of kss).
Proof. reflexivity. Qed.
Lemma calm_more h h' n : (h <= h')%nat -> low_calm h n -> low_calm h' n.
Proof. intros L (A & B). split; [exact A|lia]. Qed.
Lemma list_calm l : Forall (fun o => forall ns, write_sobj o = Ok ns -> Forall (low_calm (2 * slevels o)) ns) l -> forall ns, write_sobjs l = Ok ns -> Forall (low_calm (2 * levels_in l)) ns.
Proof.
  induction 1 as [|o l H F IH]; intros ns E; [cbn in E; apply Ok_inj in E; subst; constructor|]. cbn [write_sobjs] in E. destruct (write_sobj o) as [n1| | |] eqn:E1; try discriminate E. cbn [bind] in E.
  destruct (write_sobjs l) as [n2| | |] eqn:E2; try discriminate E. cbn [bind] in E. apply Ok_inj in E. subst ns. cbn [levels_in]. apply Forall_app. split.
  - eapply Forall_impl; [|exact (H n1 eq_refl)]. intros n. apply calm_more. lia.
  - eapply Forall_impl; [|exact (IH n2 eq_refl)]. intros n. apply calm_more. lia.
Qed.
Lemma slots_calm kss : Forall (Forall (fun o => forall ns, write_sobj o = Ok ns -> Forall (low_calm (2 * slevels o)) ns)) kss -> forall nss, write_slots kss = Ok nss -> forall i, Forall (low_calm (2 * levels_of kss)) (nth i nss []).
Proof.
  induction 1 as [|ks kss H F IH]; intros nss E i; [cbn in E; apply Ok_inj in E; subst; destruct i; constructor|]. cbn [write_slots] in E. destruct (write_sobjs ks) as [n1| | |] eqn:E1; try discriminate E. cbn [bind] in E.
  destruct (write_slots kss) as [n2| | |] eqn:E2; try discriminate E. cbn [bind] in E. apply Ok_inj in E. subst nss. cbn [levels_of]. destruct i as [|i]; cbn [nth].
  - eapply Forall_impl; [|exact (list_calm ks H n1 E1)]. intros n. apply calm_more. lia.
  - eapply Forall_impl; [|exact (IH n2 eq_refl i)]. intros n. apply calm_more. lia.
Qed.
Lemma object_calm o : sobj_ok o -> texts_fine o -> forall ns, write_sobj o = Ok ns -> Forall (low_calm (2 * slevels o)) ns.
Proof.
  induction o as [c vs kss IH] using sobj_induction. intros OK TX ns W. inversion OK as [? ? ? M F SH KO]; subst. inversion TX as [? ? ? T1 T2]; subst. rewrite write_sobj_eq in W.
  destruct (left_out c vs kss) eqn:LO; [apply Ok_inj in W; subst; constructor|].
  assert (KK : Forall (Forall (fun o => forall ns, write_sobj o = Ok ns -> Forall (low_calm (2 * slevels o)) ns)) kss).
  { clear -IH KO T2. induction IH as [|ks kss H1 _ IH2]; [constructor|]. inversion KO as [|? ? K1 K2]; inversion T2 as [|? ? U1 U2]; subst. constructor; [|exact (IH2 K2 U2)].
    clear -H1 K1 U1. induction H1; inversion K1; inversion U1; subst; constructor; auto. }
  destruct (write_slots kss) as [nss| | |] eqn:WS; try discriminate W. cbn [bind] in W. assert (DR : c = SMapDef -> nth 0 kss [] <> []) by (intros ->; exact SH).
  rewrite (written_items c vs kss nss M DR) in W. cbn [bind fst snd] in W. apply Ok_inj in W. subst ns. constructor; [|constructor]. rewrite slevels_eq.
  destruct (attrs_calm c vs M T1) as (A1 & A2). pose proof (chk_xml_names c) as NC. apply andb_prop in NC as (NC & _). apply name_chk_ok in NC.
  destruct (existsb is_own (swrites c)) eqn:OW.
  - apply existsb_exists in OW as (it & I & O). rewrite (only_kid c vs kss nss it I O). destruct M as (M1 & M2 & _).
    assert (H : exists v, out_kids vs kss nss it = [Text v] /\ text_calm v).
    { destruct it as [a f k w|m f k w|f k| |i co e d]; try discriminate O; cbn [out_kids]; eexists; (split; [reflexivity|]).
      - destruct (entry_in c _ I f k WAlways ltac:(now left)) as (JJ & S). destruct (M1 f k WAlways JJ) as (V & _). apply enc_calm; [exact S|exact (entry_marked c _ I f k WAlways ltac:(now left))|exact V|].
        intros s E. destruct (T1 f s E) as (Q1 & Q2). split; [exact Q1|]. apply Q2. eexists. split; [exact I|reflexivity].
      - apply command_calm; [exact (M2 I)|]. intros f E. exact (proj1 (T1 _ f E)). }
    destruct H as (v & -> & TC). split; [now apply calm_text|]. cbn. lia.
  - pose proof (kids_calm c vs kss nss (2 * levels_of kss) M T1 OW (slots_calm kss KK nss WS)) as KC. split.
    + apply calm_elems; auto. eapply Forall_impl; [|exact KC]. now intros n (H & _).
    + assert (H : (height (Elem (sname c) (the_attrs c vs) (the_kids c vs kss nss)) <= S (S (2 * levels_of kss)))%nat); [|lia]. apply height_le. intros k I. rewrite Forall_forall in KC. exact (proj2 (KC k I)).
Qed.
Lemma objects_calm c l : of_kind c l -> Forall texts_fine l -> forall ns, write_sobjs l = Ok ns -> Forall (low_calm (2 * levels_in l)) ns.
Proof.
  intros K TX. apply list_calm. unfold of_kind in K. rewrite Forall_forall in K, TX. apply Forall_forall. intros o I. apply object_calm; [apply (K o I)|apply (TX o I)].
Qed.
Definition scene_levels (s : scene) : nat := levels_in (sc_data s ++ sc_layers s ++ sc_maps s ++ sc_positions s ++ sc_symdefs s).
Lemma levels_app a b : levels_in (a ++ b) = Nat.max (levels_in a) (levels_in b).
Proof. induction a as [|x a IH]; [reflexivity|]. cbn [app levels_in]. rewrite IH. lia. Qed.
Lemma scene_calm s n : scene_ok s -> scene_texts s -> write_scene s = Ok n -> low_calm (3 + 2 * scene_levels s) n.
Proof.
  intros (P & V & D & L & M & PO & SY & _) (TP & TV & TX) W. rewrite !Forall_app in TX. destruct TX as (T1 & T2 & T3 & T4 & T5). unfold write_scene in W.
  destruct (good_bytes _ P) as (bp & EP & _). destruct (good_bytes _ V) as (bv & EV & _). rewrite EP, EV in W. cbn [bind] in W.
  destruct (write_sobjs (sc_data s)) as [n1| | |] eqn:W1; try discriminate W. destruct (write_sobjs (sc_layers s)) as [n2| | |] eqn:W2; try discriminate W. destruct (write_sobjs (sc_maps s)) as [n3| | |] eqn:W3; try discriminate W.
  destruct (write_sobjs (sc_positions s)) as [n4| | |] eqn:W4; try discriminate W. destruct (write_sobjs (sc_symdefs s)) as [n5| | |] eqn:W5; try discriminate W. cbn [bind] in W. apply Ok_inj in W. subst n.
  set (h := (2 * scene_levels s)%nat).
  assert (LV : forall l ns, Forall (low_calm (2 * levels_in l)) ns -> (levels_in l <= scene_levels s)%nat -> Forall (low_calm h) ns).
  { intros l ns F Q. eapply Forall_impl; [|exact F]. intros x. apply calm_more. unfold h. lia. }
  assert (LE : (levels_in (sc_data s) <= scene_levels s /\ levels_in (sc_layers s) <= scene_levels s /\ levels_in (sc_maps s) <= scene_levels s /\ levels_in (sc_positions s) <= scene_levels s /\ levels_in (sc_symdefs s) <= scene_levels s)%nat).
  { unfold scene_levels. rewrite !levels_app. lia. }
  destruct LE as (L1 & L2 & L3 & L4 & L5).
  assert (F1 := LV _ _ (objects_calm _ _ D T1 _ W1) L1). assert (F2 := LV _ _ (objects_calm _ _ L T2 _ W2) L2). assert (F3 := LV _ _ (objects_calm _ _ M T3 _ W3) L3).
  assert (F4 := LV _ _ (objects_calm _ _ PO T4 _ W4) L4). assert (F5 := LV _ _ (objects_calm _ _ SY T5 _ W5) L5).
  assert (EL : forall x ns k, xml_name x -> Forall (low_calm k) ns -> low_calm (S k) (Elem x [] ns)).
  { intros x ns k X G. split; [apply calm_elems; [exact X|constructor|constructor|]; eapply Forall_impl; [|exact G]; now intros ? (? & _)|]. apply height_le. intros y Iy. rewrite Forall_forall in G. exact (proj2 (G y Iy)). }
  assert (NM : forall x, name_chk x = true -> xml_name x) by exact name_chk_ok.
  assert (K : Forall (low_calm (S (S h))) [Elem T"UserData" [] n1; Elem T"Scene" [] [Elem T"Layers" [] n2; Elem T"AUXData" [] (n3 ++ n4 ++ n5)]]).
  { constructor; [|constructor; [|constructor]].
    - apply (calm_more (S h)); [lia|]. apply EL; [now apply NM|exact F1].
    - apply EL; [now apply NM|]. constructor; [apply EL; [now apply NM|exact F2]|]. constructor; [apply EL; [now apply NM|]|constructor]. rewrite !Forall_app. auto. }
  split.
  - apply calm_elems; [now apply NM| | |eapply Forall_impl; [|exact K]; now intros ? (? & _)].
    + cbn [map fst]. apply distinct_nodup. reflexivity.
    + destruct (no_cr_bytes _ _ P EP TP). destruct (no_cr_bytes _ _ V EV TV).
      assert (LIT : forall x, ascii x -> ~ In 0 x /\ ~ In 13 x) by (intros x A; unfold ascii in A; rewrite Forall_forall in A; split; intros I; specialize (A _ I); lia).
      repeat constructor; cbn [fst snd]; try (now apply NM); try assumption; try (apply LIT; lit).
  - apply height_le. intros k I. rewrite Forall_forall in K. exact (proj2 (K k I)).
Qed.

(** ** C96 *)
(** Objects nested up to 47 levels: what is read back from the bytes of the file is the scene. *)
Theorem C96_file same_key s : key_test same_key -> scene_ok s -> scene_texts s -> Forall (fun o => (slevels o <= 47)%nat) (sc_data s ++ sc_layers s ++ sc_maps s ++ sc_positions s ++ sc_symdefs s) ->
  exists n t s' b, write_scene s = Ok n /\ parse (write_buffer [n]) = DOk [Decl declaration; t] /\ read_scene same_key t = Ok (s', b) /\ same_scene s s' /\ (b = true <-> clash s).
Proof.
  intros K OK TX L. destruct (C95_scene same_key s K OK) as (n & s' & b & W & R & S & B). destruct (scene_calm s n OK TX W) as (C & H).
  assert (SL : (scene_levels s <= 47)%nat).
  { unfold scene_levels. induction L as [|o l L1 _ IH]; [cbn; lia|]. cbn [levels_in]. lia. }
  exists n, (bare n), s', b. split; [exact W|]. split; [|split; [now rewrite scene_bare|now split]]. rewrite (calm_file n C). rewrite (proj2 (N.ltb_lt _ _)) by lia. reflexivity.
Qed.
(** Deeper ones: the file cannot be read. *)
Theorem C96_deep s n h : scene_ok s -> scene_texts s -> write_scene s = Ok n -> nested n h -> (98 < h)%nat -> parse (write_buffer [n]) = DErr EDepth.
Proof.
  intros OK TX W N L. destruct (scene_calm s n OK TX W) as (C & _). apply nested_height in N. subst h. rewrite (calm_file n C). now rewrite (proj2 (N.ltb_ge _ _)) by lia.
Qed.
(** *** A scene in a file *)
Definition plainb (s : list N) : bool := negb (existsb (N.eqb 13) s) && (match s with [] => true | _ => false end || existsb (fun c => negb ((c =? 32) || (9 <=? c) && (c <=? 13))) s).
Lemma plainb_ok s : plainb s = true -> ~ In 13 s /\ (s = [] \/ ~ Forall XmlSpec.white s).
Proof.
  intros H. apply andb_prop in H as (H1 & H2). split.
  - intros I. apply negb_true_iff in H1. assert (existsb (N.eqb 13) s = true) by (apply existsb_exists; exists 13; split; [exact I|reflexivity]). congruence.
  - apply orb_prop in H2 as [H2|H2]; [left; now destruct s|right]. intros F. apply existsb_exists in H2 as (c & I & H2). rewrite Forall_forall in F. specialize (F c I). unfold XmlSpec.white in F. lia.
Qed.
Fixpoint textsb (o : sobj) : bool :=
  match o with SObj _ vs kss => forallb (fun p => match snd p with VTxt s => plainb s | _ => true end) vs && forallb (forallb textsb) kss end.
Lemma get_in f vs s : get f vs = VTxt s -> In (f, VTxt s) vs.
Proof. induction vs as [|(g, v) r IH]; [discriminate|]. cbn [get]. destruct (String.eqb f g) eqn:E; [apply String.eqb_eq in E; intros ->; subst; now left|right; auto]. Qed.
Lemma textsb_ok o : textsb o = true -> texts_fine o.
Proof.
  induction o as [c vs kss IH] using sobj_induction. cbn [textsb]. intros H. apply andb_prop in H as (H1 & H2). constructor.
  - intros g s E. apply get_in in E. rewrite forallb_forall in H1. specialize (H1 _ E). cbn [snd] in H1. apply plainb_ok in H1. tauto.
  - rewrite forallb_forall in H2. rewrite Forall_forall in IH |- *. intros ks I. specialize (H2 ks I). specialize (IH ks I). rewrite forallb_forall in H2. rewrite Forall_forall in IH |- *. auto.
Qed.
Definition scene_textsb (s : scene) : bool :=
  plainb (sc_provider s) && plainb (sc_version s) && forallb textsb (sc_data s ++ sc_layers s ++ sc_maps s ++ sc_positions s ++ sc_symdefs s).
Lemma scene_textsb_ok s : scene_textsb s = true -> scene_texts s.
Proof.
  intros H. apply andb_prop in H as (H & H3). apply andb_prop in H as (H1 & H2). split; [now apply plainb_ok|]. split; [now apply plainb_ok|]. rewrite forallb_forall in H3. apply Forall_forall. intros o I. apply textsb_ok; auto.
Qed.
Example C96_case : exists n t s', write_scene a_scene = Ok n /\ parse (write_buffer [n]) = DOk [Decl declaration; t] /\ read_scene eqb_bytes t = Ok (s', false) /\ same_scene a_scene s'.
Proof.
  destruct (C96_file eqb_bytes a_scene exact_key a_scene_ok) as (n & t & s' & b & W & P & R & S & B).
  - apply scene_textsb_ok. vm_compute. reflexivity.
  - cbn -[slevels]. repeat constructor; vm_compute; repeat constructor.
  - exists n, t, s'. split; [exact W|]. split; [exact P|]. split; [|exact S]. destruct b; [|exact R]. exfalso. destruct C95_case as (n' & s'' & _ & _ & _ & C). apply C, B. reflexivity.
Qed.
(** Groups in groups, with a truss in the last one. *)
Fixpoint groups (k : nat) : sobj := match k with O => mk STruss [gid 2] [] | S j => mk SGroup [gid (3 + N.of_nat j)] [(5%nat, [groups j])] end.
(** With 48 groups the file is refused: *)
Theorem C96_deep_refuted : exists s n, scene_ok s /\ scene_texts s /\ write_scene s = Ok n /\ parse (write_buffer [n]) = DErr EDepth.
Proof.
  exists (stage (groups 48)).
  assert (E : match write_scene (stage (groups 48)) with Ok n => (1 + N.of_nat (height n) <? 100) | _ => true end = false) by (vm_compute; reflexivity).
  assert (K : scene_ok (stage (groups 48))) by (apply (scene_okb_ok (map id (map N.of_nat (seq 0 60)))); vm_compute; reflexivity).
  assert (X : scene_texts (stage (groups 48))) by (apply scene_textsb_ok; vm_compute; reflexivity).
  destruct (write_scene (stage (groups 48))) as [n| | |] eqn:W; try discriminate E. exists n. split; [exact K|]. split; [exact X|]. split; [reflexivity|].
  destruct (scene_calm _ n K X W) as (C & _). rewrite (calm_file n C). now rewrite E.
Qed.
(** A text of blanks in a node is gone, and so is the carriage return of a name: *)
Theorem C96_white_refuted : exists s n t s' o o', scene_ok s /\ write_scene s = Ok n /\ parse (write_buffer [n]) = DOk [Decl declaration; t] /\ read_scene eqb_bytes t = Ok (s', false) /\
  objects s = [o] /\ objects s' = [o'] /\ get "fFixtureId" (smembers o) = tx " " /\ get "fFixtureId" (smembers o') = tx "".
Proof.
  exists (stage (mk SFixture [gid 2; ("fFixtureId"%string, tx " ")] [(7%nat, [mk SGobo [] []])])). eexists _, _, _, _, _.
  split; [apply (scene_okb_ok the_ids); vm_compute; reflexivity|]. split; [vm_compute; reflexivity|]. split; [vm_compute; reflexivity|]. split; [vm_compute; reflexivity|].
  split; [vm_compute; reflexivity|]. split; [vm_compute; reflexivity|]. split; vm_compute; reflexivity.
Qed.
Theorem C96_cr_refuted : good [65; 13; 66] /\ exists s n t s' o o', write_scene s = Ok n /\ parse (write_buffer [n]) = DOk [Decl declaration; t] /\ read_scene eqb_bytes t = Ok (s', false) /\
  objects s = [o] /\ objects s' = [o'] /\ get "fName" (smembers o) = VTxt [65; 13; 66] /\ get "fName" (smembers o') = VTxt [65; 10; 66].
Proof.
  split; [exists [65; 13; 66]; split; [vm_compute; reflexivity|do 3 (apply Forall_cons; [unfold UtfSpec.scalar; lia|]); apply Forall_nil]|]. exists (stage (mk STruss [gid 2; ("fName"%string, VTxt [65; 13; 66])] [])). eexists _, _, _, _, _.
  split; [vm_compute; reflexivity|]. split; [vm_compute; reflexivity|]. split; [vm_compute; reflexivity|].
  split; [vm_compute; reflexivity|]. split; [vm_compute; reflexivity|]. split; vm_compute; reflexivity.
Qed.
Print Assumptions C96_file.
Print Assumptions C96_deep.
Print Assumptions C96_case.
Print Assumptions C96_deep_refuted.
Print Assumptions C96_white_refuted.
Print Assumptions C96_cr_refuted.
