(** C98 - C100: MVR files of others, objects with one GUID, DMX addresses. *)
From Coq Require Import String List NArith ZArith Bool Lia.
From Coq Require Import ZifyN ZifyNat ZifyBool.
From Verif Require Import Bytes BytesProofs Txt UtfModel StringModel StringProofs NumModel NumProofs FloatModel ConvModel UuidModel UuidProps EnumModel VecModel VecProps
  XmlModel XmlSpec XmlProofs ObjModel ObjSpec ObjConv ObjAttrs SceneModel SceneSpec SceneConv SceneTree SceneProofs SceneCheck SceneProps.
Import ListNotations.
Open Scope N_scope.
Open Scope list_scope.
Ltac Zify.zify_post_hook ::= idtac.

(** ** C98: files of others *)
(** *** Reading ends *)
Lemma bind_ends {A B} (x : res A) (f : A -> res B) : x <> Loop -> (forall a, x = Ok a -> f a <> Loop) -> bind x f <> Loop.
Proof. intros H G. destruct x; cbn [bind]; try discriminate; auto. Qed.
Lemma atoi_ends s : atoi s <> Loop.
Proof.
  unfold atoi. destruct (to_bytes s); [|discriminate]. rewrite c_atoi_eq. destruct (skip_space (upto_nul l)); [discriminate|]. unfold int_result.
  repeat match goal with |- (if ?b then _ else _) <> _ => destruct b end; discriminate.
Qed.
Lemma int_ends {A} (f : Z -> A) old s : read_int f old s <> Loop.
Proof. unfold read_int. destruct (is_empty s); [discriminate|]. apply bind_ends; [apply atoi_ends|discriminate]. Qed.
Lemma uuid_ends old s : read_uuid old s <> Loop.
Proof.
  unfold read_uuid. apply bind_ends.
  - unfold uuid_input. destruct (nlen s =? 47) eqn:E; [|destruct (nlen s =? 36); [discriminate|destruct (nlen s =? 0); discriminate]].
    rewrite ConvProps.replace1_ok; [discriminate|]. apply N.eqb_eq in E. rewrite E. reflexivity.
  - intros [t|] _; [|discriminate]. destruct (uuid_of_text zero_uuid t); discriminate.
Qed.
Definition in_use (k : sconv) : bool :=
  match k with SC (KText | KUint32 | KSize | KSint32 | KDouble | KColor | KVec | KBool | KEnum _) | SGuid | SMulti | SMatrix | SSint8 | SCustom | SNet => true | _ => false end.
Lemma guid_ends s : guid_of s <> Loop.
Proof. unfold guid_of. apply bind_ends; [apply uuid_ends|]. intros x _. destruct (rd_errs x =? 0); discriminate. Qed.
Lemma conv_ends k old s : in_use k = true -> sread_conv k old s <> Loop.
Proof.
  destruct (C76_ends point s) as (V & C & _ & M & _).
  assert (G : forall A (mk : A -> val) (x : res (rd_res A)), x <> Loop -> (if is_empty s then result old false 0 else do y <- x; got mk y) <> Loop).
  { intros A mk x H. destruct (is_empty s); [discriminate|]. apply bind_ends; [exact H|discriminate]. }
  destruct k as [k| | | | | |]; cbn [sread_conv]; intros U.
  - apply bind_ends; [|discriminate]. destruct k; try discriminate U; cbn [read_conv]; try (apply G; apply int_ends); try discriminate.
    + apply G. unfold read_double. destruct (is_empty s); [discriminate|]. apply bind_ends; [apply atof_ends|discriminate].
    + apply bind_ends; [apply C|discriminate].
    + apply bind_ends; [apply V|discriminate].
    + destruct (bool_read s). discriminate.
    + destruct (enum_read t (as_nat old) s). destruct (find _ _), (et_read_other t); discriminate.
  - apply bind_ends; [apply guid_ends|discriminate].
  - destruct (is_empty s); [discriminate|]. apply bind_ends; [apply guid_ends|discriminate].
  - apply bind_ends; [apply M|discriminate].
  - destruct (is_empty s); [discriminate|]. apply bind_ends; [apply int_ends|discriminate].
  - apply bind_ends; [|discriminate]. cbn [read_conv]. apply G, int_ends.
  - discriminate.
Qed.
Lemma text_ends b : text_of b <> Loop.
Proof. unfold text_of. destruct (set_from_chars b); discriminate. Qed.
Lemma attr_ends a l : attr_text a l <> Loop.
Proof. unfold attr_text. destruct (get_attr a l); [|discriminate]. apply bind_ends; [apply text_ends|discriminate]. Qed.
Lemma node_text_ends ks : node_text ks <> Loop.
Proof. unfold node_text. destruct (get_text ks); [apply text_ends|discriminate]. Qed.
Lemma all_in_use c : forallb (fun r => match r with RAttr _ _ k | RNode _ _ k | ROwn _ k => in_use k | RCommand => true end) (sreads c) = true.
Proof. destruct c; reflexivity. Qed.
Lemma item_ends attrs kids vs r : match r with RAttr _ _ k | RNode _ _ k | ROwn _ k => in_use k | RCommand => true end = true -> read_item attrs kids r vs <> Loop.
Proof.
  intros U. destruct r as [a f k|n f k|f k|]; cbn [read_item].
  - apply bind_ends; [apply attr_ends|]. intros [s|] _; [apply bind_ends; [now apply conv_ends|discriminate]|].
    assert (H : (do v <- sread_conv k (get f vs) []; Ok (put f v vs)) <> Loop) by (apply bind_ends; [now apply conv_ends|discriminate]).
    destruct k as [[]| | | | | |]; try discriminate; exact H.
  - destruct (child_named n kids) as [[? ? ks|?|?|?|?|?]|]; try discriminate. apply bind_ends; [apply node_text_ends|]. intros s _. apply bind_ends; [now apply conv_ends|discriminate].
  - apply bind_ends; [apply node_text_ends|]. intros s _. apply bind_ends; [now apply conv_ends|discriminate].
  - apply bind_ends; [apply node_text_ends|]. intros s _. unfold read_command. destruct (match tx_find s T"/percent" 0 false with Some p => _ | None => _ end) as (p, f).
    apply bind_ends; [apply atof_ends|discriminate].
Qed.
Lemma items_end attrs kids its : forallb (fun r => match r with RAttr _ _ k | RNode _ _ k | ROwn _ k => in_use k | RCommand => true end) its = true -> forall vs, read_items attrs kids its vs <> Loop.
Proof.
  induction its as [|r its IH]; intros U vs; [discriminate|]. cbn [forallb] in U. apply andb_prop in U as (U1 & U2). cbn [read_items]. apply bind_ends; [now apply item_ends|]. intros vs' _. now apply IH.
Qed.
Lemma elements_end kids : elements kids <> Loop.
Proof. induction kids as [|[n a k|?|?|?|?|?] kids IH]; cbn [elements]; try exact IH; [discriminate|]. apply bind_ends; [apply text_ends|]. intros s _. apply bind_ends; [exact IH|discriminate]. Qed.
Lemma elements_in kids : forall els, elements kids = Ok els -> Forall (fun e => In (snd e) kids /\ exists n a k, snd e = Elem n a k) els.
Proof.
  assert (MONO : forall (n : node) l (els : list (list N * node)), Forall (fun e => In (snd e) l /\ exists n a k, snd e = Elem n a k) els -> Forall (fun e => In (snd e) (n :: l) /\ exists n a k, snd e = Elem n a k) els).
  { intros n l els F. eapply Forall_impl; [|exact F]. intros e (I & E). split; [now right|exact E]. }
  induction kids as [|[n a k|v|v|v|v|v] kids IH]; cbn [elements]; intros els E; try (apply MONO; now apply IH); [injection E as <-; constructor|].
  destruct (text_of n); try discriminate E. cbn [bind] in E. destruct (elements kids) as [e| | |]; try discriminate E. cbn [bind] in E. injection E as <-.
  constructor; [split; [now left|exists n, a, k; reflexivity]|]. apply MONO. now apply IH.
Qed.
Lemma kinds_end rd u kinds els : Forall (fun e => forall c, rd c (snd e) <> Loop) els -> read_kinds rd u kinds els <> Loop.
Proof.
  induction 1 as [|(name, n) els H F IH]; [discriminate|]. cbn [read_kinds snd] in *. destruct (skind_of kinds name) as [c|]; [|exact IH]. destruct (u && negb (has_uuid n)); [exact IH|].
  apply bind_ends; [apply H|]. intros o _. apply bind_ends; [exact IH|discriminate].
Qed.
Lemma child_elem n kids m : child_named n kids = Some m -> In m kids /\ exists a k, m = Elem n a k.
Proof.
  induction kids as [|[x a k|v|v|v|v|v] kids IH]; cbn [child_named]; intros E; try (destruct (IH E) as (I & H); split; [now right|exact H]); [discriminate|].
  destruct (eqb_bytes x n) eqn:Q; [|destruct (IH E) as (I & H); split; [now right|exact H]]. apply eqb_bytes_iff in Q. subst x. injection E as <-. split; [now left|eauto].
Qed.
Lemma kid_depth n a kids k : In k kids -> (depth k < depth (Elem n a kids))%nat.
Proof. intros I. pose proof (in_max kids k I). cbn [depth]. lia. Qed.
Lemma read_ends : forall fuel c n, (exists m a k, n = Elem m a k) -> (depth n <= fuel)%nat -> read_sobj fuel c n <> Loop.
Proof.
  induction fuel as [|fuel IH]; intros c n (m & a & kids & ->) D; [cbn [depth] in D; lia|]. cbn [read_sobj]. apply bind_ends; [apply items_end, all_in_use|]. intros vs _.
  apply bind_ends; [|discriminate].
  assert (FROM : forall kids', (forall k, In k kids' -> (depth k <= fuel)%nat) -> forall s, (match rs_mode s with
    | RAll => do els <- elements kids'; read_kinds (read_sobj fuel) false (rs_kinds s) els
    | RAllUuid => do els <- elements kids'; read_kinds (read_sobj fuel) true (rs_kinds s) els
    | ROpt | ROne => read_first (read_sobj fuel) (rs_kinds s) kids'
    end) <> Loop).
  { intros kids' DK s.
    assert (ALL : forall u, (do els <- elements kids'; read_kinds (read_sobj fuel) u (rs_kinds s) els) <> Loop).
    { intros u. apply bind_ends; [apply elements_end|]. intros els E. apply kinds_end. eapply Forall_impl; [|exact (elements_in _ _ E)]. intros e (I & X) d. apply IH; [exact X|now apply DK]. }
    assert (FIRST : read_first (read_sobj fuel) (rs_kinds s) kids' <> Loop).
    { unfold read_first. destruct (rs_kinds s) as [|(name, d) ?]; [discriminate|]. destruct (child_named (txt name) kids') as [x|] eqn:E; [|discriminate].
      destruct (child_elem _ _ _ E) as (I & a' & k' & ->). apply bind_ends; [|discriminate]. apply IH; [eauto|now apply DK]. }
    destruct (rs_mode s); auto. }
  assert (DK : forall k, In k kids -> (depth k <= fuel)%nat) by (intros k I; pose proof (kid_depth m a kids k I); lia).
  assert (SL : forall ss, sread_slots (read_sobj fuel) ss kids <> Loop).
  { induction ss as [|s ss IHs]; [discriminate|]. cbn [sread_slots]. apply bind_ends; [|intros l _; apply bind_ends; [exact IHs|discriminate]].
    unfold sread_slot. apply bind_ends; [|discriminate]. destruct (rs_container s) as [co|]; [|now apply FROM].
    destruct (child_named co kids) as [x|] eqn:E; [|discriminate]. destruct (child_elem _ _ _ E) as (I & a' & k' & ->). apply FROM.
    intros k J. pose proof (kid_depth co a' k' k J). pose proof (DK _ I). lia. }
  apply SL.
Qed.
Lemma node_ends c n : (exists m a k, n = Elem m a k) -> sread_node c n <> Loop.
Proof. intros E. apply read_ends; [exact E|apply le_n]. Qed.
Lemma aux_ends els : Forall (fun e => exists n a k, snd e = Elem n a k) els -> forall r, read_aux els r <> Loop.
Proof.
  induction 1 as [|(name, n) els H F IH]; intros r; [discriminate|]. cbn [read_aux]. cbn [snd] in H. apply bind_ends; [|intros r' _; apply IH].
  assert (Q : forall c (g : sobj -> raw), (do o <- sread_node c n; Ok (g o)) <> Loop) by (intros; apply bind_ends; [now apply node_ends|discriminate]).
  repeat match goal with |- (if ?b then _ else _) <> Loop => destruct b end; try apply Q; [|discriminate].
  apply bind_ends; [now apply node_ends|]. intros o _. apply bind_ends; [|discriminate]. unfold key_of. destruct n; try discriminate. apply bind_ends; [apply attr_ends|discriminate].
Qed.
Theorem C98_ends same_key root : read_scene same_key root <> Loop.
Proof.
  unfold read_scene. apply bind_ends.
  - unfold read_raw. destruct root as [m a kids|?|?|?|?|?]; try discriminate.
    assert (ALL : forall u kinds ks, (do els <- elements ks; read_kinds sread_node u kinds els) <> Loop).
    { intros u kinds ks. apply bind_ends; [apply elements_end|]. intros els E. apply kinds_end. eapply Forall_impl; [|exact (elements_in _ _ E)]. intros e (_ & X) c. now apply node_ends. }
    apply bind_ends.
    { unfold in_child. destruct (child_named T"UserData" kids) as [[? ? ks|?|?|?|?|?]|]; try discriminate. cbn [read_data]. apply ALL. }
    intros data _. unfold in_child at 1. destruct (child_named T"Scene" kids) as [[? ? skids|?|?|?|?|?]|]; try discriminate.
    apply bind_ends.
    { unfold in_child. destruct (child_named T"AUXData" skids) as [[? ? ks|?|?|?|?|?]|]; try discriminate. apply bind_ends; [apply elements_end|]. intros els E. apply aux_ends.
      eapply Forall_impl; [|exact (elements_in _ _ E)]. now intros e (_ & X). }
    intros r _. apply bind_ends; [|discriminate]. unfold in_child. destruct (child_named T"Layers" skids) as [[? ? ks|?|?|?|?|?]|]; try discriminate. apply ALL.
  - intros r _. unfold resolve. apply bind_ends; [|discriminate].
    generalize (build same_key 0 (rw_symdefs r) []) as m0. generalize (flat_map scene_objs (rw_layers r)) as objs. intros objs. induction objs as [|o objs IH]; intros m0; [discriminate|]. cbn [resolve_symbols].
    destruct (round_ok same_key _ m0); [apply IH|discriminate].
Qed.

(** *** Symbols *)
(** The definition a symbol among the geometries of [o] refers to is not in the file. *)
Definition lacks_definition (same_key : list N -> list N -> bool) (keys : list (list N)) (o : sobj) : Prop :=
  exists s, In s (symbols 0 o) /\ forall k, In k keys -> same_key (sym_ref s) k = false.
Definition has_null (m : symmap) : Prop := exists e, In e m /\ snd e = None.
Lemma set_in same_key k v m : In v (map snd (map_set same_key k v m)) /\ forall x, In x (map fst (map_set same_key k v m)) -> x = k \/ In x (map fst m).
Proof.
  induction m as [|(k', w) m (A & B)]; cbn [map_set]; [split; [now left|intros x [<- |[]]; now left]|]. destruct (same_key k k'); cbn [map fst snd].
  - split; [now left|]. intros x I. now right.
  - split; [now right|]. intros x [<- |I]; [right; now left|]. destruct (B x I) as [-> |J]; [now left|right; now right].
Qed.
Lemma set_keeps same_key k v m w : map_find same_key k m = None -> In w (map snd m) -> In w (map snd (map_set same_key k v m)).
Proof.
  induction m as [|(k', x) m IH]; cbn [map_find map_set map snd]; intros F I; [destruct I|]. destruct (same_key k k'); [discriminate F|]. cbn [map snd]. destruct I as [<- |I]; [now left|right; now apply IH].
Qed.
Lemma find_in same_key k m v : map_find same_key k m = Some v -> exists k', In (k', v) m /\ same_key k k' = true.
Proof.
  induction m as [|(k', x) m IH]; cbn [map_find]; intros F; [discriminate F|]. destruct (same_key k k') eqn:E; [injection F as ->; exists k'; split; [now left|exact E]|].
  destruct (IH F) as (k2 & I & J). exists k2. split; [now right|exact J].
Qed.
Lemma null_iff m : has_null m <-> In None (map snd m).
Proof. unfold has_null. rewrite in_map_iff. split; intros (e & A & B); exists e; auto. Qed.
Lemma own_steps same_key l : forall m, let m' := fold_left (fun m s => match map_find same_key (sym_ref s) m with Some _ => m | None => map_set same_key (sym_ref s) None m end) l m in
  (m' = m \/ has_null m') /\ (has_null m -> has_null m') /\ ((exists s, In s l /\ map_find same_key (sym_ref s) m = None) -> has_null m').
Proof.
  induction l as [|s l IH]; intros m; cbn [fold_left]; [split; [now left|split; [auto|intros (s & [] & _)]]|]. destruct (map_find same_key (sym_ref s) m) as [v|] eqn:F.
  - destruct (IH m) as (A & B & C). split; [exact A|]. split; [exact B|]. intros (x & [<- |I] & N); [congruence|]. apply C. eauto.
  - destruct (IH (map_set same_key (sym_ref s) None m)) as (A & B & C).
    assert (Z : has_null (map_set same_key (sym_ref s) None m)) by (apply null_iff; apply set_in).
    split; [right; now apply B|]. split; auto.
Qed.
Lemma null_round same_key defs m : has_null m -> round_ok same_key defs m = false.
Proof.
  intros (e & I & E). destruct (round_ok same_key defs m) eqn:R; [|reflexivity]. unfold round_ok in R. rewrite forallb_forall in R. specialize (R e I). rewrite E in R. discriminate R.
Qed.
Lemma missing same_key keys k m : (forall x, In x (map fst m) -> In x keys) -> (forall x, In x keys -> same_key k x = false) -> map_find same_key k m = None.
Proof.
  intros S N. destruct (map_find same_key k m) as [v|] eqn:F; [|reflexivity]. destruct (find_in _ _ _ _ F) as (k' & I & E). exfalso.
  assert (same_key k k' = false) by (apply N, S, in_map_iff; exists (k', v); auto). congruence.
Qed.
Lemma dangling same_key defs keys o p : forall objs m, (forall x, In x (map fst m) -> In x keys) ->
  (exists a b, objs = a ++ o :: p :: b) -> lacks_definition same_key keys o -> resolve_symbols same_key defs objs m = UB.
Proof.
  assert (NULL : forall objs m, has_null m -> objs <> [] -> resolve_symbols same_key defs objs m = UB).
  { intros [|x objs] m H N; [congruence|]. cbn [resolve_symbols]. now rewrite null_round. }
  induction objs as [|x objs IH]; intros m S (a & b & E) L; [destruct a; discriminate E|]. cbn [resolve_symbols]. destruct (round_ok same_key defs m); [|reflexivity].
  destruct (own_steps same_key (symbols 0 x) m) as (A & B & C). fold (own_symbols same_key m x) in A, B, C. destruct a as [|y a]; cbn [app] in E; injection E as -> ->.
  - apply NULL; [|discriminate]. apply C. destruct L as (s & I & N). exists s. split; [exact I|]. now apply (missing same_key keys).
  - destruct A as [-> |A]; [apply IH; eauto|]. apply NULL; [exact A|]. destruct a; discriminate.
Qed.
Lemma build_keys same_key l : forall i m x, In x (map fst (build same_key i l m)) -> In x (map fst l) \/ In x (map fst m).
Proof.
  induction l as [|(k, o) l IH]; intros i m x I; [now right|]. cbn [build] in I. apply IH in I as [I|I]; [left; now right|]. destruct (set_in same_key k (Some i) m) as (_ & B). destruct (B x I) as [-> |J]; [left; now left|now right].
Qed.
(** A symbol whose definition is not in the file makes reading undefined at the next scene object. *)
Theorem C98_dangling same_key root r a o p b : read_raw root = Ok r -> flat_map scene_objs (rw_layers r) = a ++ o :: p :: b ->
  lacks_definition same_key (map fst (rw_symdefs r)) o -> read_scene same_key root = UB.
Proof.
  intros R E L. unfold read_scene. rewrite R. cbn [bind]. unfold resolve. rewrite (dangling same_key _ (map fst (rw_symdefs r)) o p); [reflexivity| |eauto|exact L].
  intros x I. apply build_keys in I as [I|[]]. exact I.
Qed.
Definition layer (kids : list node) : node := Elem T"GeneralSceneDescription" [] [Elem T"Scene" [] [Elem T"Layers" [] [Elem T"Layer" [(T"uuid", T"00000000-0000-0000-0000-000000000001")] [Elem T"ChildList" [] kids]]]].
Definition truss_with (kids : list node) : node := Elem T"Truss" [(T"uuid", T"00000000-0000-0000-0000-000000000002")] kids.
Definition chair : node := Elem T"Geometries" [] [Elem T"Symbol" [(T"uuid", T"00000000-0000-0000-0000-000000000003"); (T"symdef", T"00000000-0000-0000-0000-000000000030")] []].
Example C98_dangling_case : read_scene eqb_bytes (layer [truss_with [chair]; truss_with []]) = UB /\ exists s, read_scene eqb_bytes (layer [truss_with [chair]]) = Ok (s, false).
Proof. split; [vm_compute; reflexivity|eexists; vm_compute; reflexivity]. Qed.
(** If every symbol among the geometries of scene objects and definitions refers to a definition in the file, nothing is undefined. *)
Definition equivalence (same_key : list N -> list N -> bool) : Prop :=
  (forall a, same_key a a = true) /\ (forall a b, same_key a b = true -> same_key b a = true) /\ forall a b c, same_key a b = true -> same_key b c = true -> same_key a c = true.
Lemma set_found same_key k v m : equivalence same_key -> forall x, same_key x k = true \/ map_find same_key x m <> None -> map_find same_key x (map_set same_key k v m) <> None.
Proof.
  intros (R & S & Tr). induction m as [|(k', w) m IH]; intros x H; cbn [map_set].
  - cbn [map_find]. destruct H as [-> |H]; [discriminate|]. destruct (same_key x k); [discriminate|exact H].
  - destruct (same_key k k') eqn:E; cbn [map_find].
    + destruct (same_key x k') eqn:F; [discriminate|]. destruct H as [H|H]; [rewrite (Tr _ _ _ H E) in F; discriminate F|]. cbn [map_find] in H. now rewrite F in H.
    + destruct (same_key x k') eqn:F; [discriminate|]. apply IH. destruct H as [H|H]; [now left|right]. cbn [map_find] in H. now rewrite F in H.
Qed.
Lemma build_found same_key : equivalence same_key -> forall l i m x, map_find same_key x m <> None \/ (exists k, In k (map fst l) /\ same_key x k = true) -> map_find same_key x (build same_key i l m) <> None.
Proof.
  intros EQ. induction l as [|(k, o) l IH]; intros i m x H; cbn [build]; [destruct H as [H|(k & [] & _)]; exact H|]. apply IH. destruct H as [H|(k' & [<- |I] & E)]; [left|left|right; eauto]; apply set_found; auto.
Qed.
Lemma set_values same_key k v m : forall w, In w (map snd (map_set same_key k v m)) -> w = v \/ In w (map snd m).
Proof.
  induction m as [|(k', x) m IH]; cbn [map_set map snd]; intros w I; [destruct I as [<- |[]]; now left|]. destruct (same_key k k'); cbn [map snd] in I.
  - destruct I as [<- |I]; [now left|right; now right].
  - destruct I as [<- |I]; [right; now left|]. destruct (IH w I) as [-> |J]; [now left|right; now right].
Qed.
Lemma build_values same_key l : forall i m w, In w (map snd (build same_key i l m)) -> In w (map snd m) \/ exists j, w = Some j /\ (i <= j < i + List.length l)%nat.
Proof.
  induction l as [|(k, o) l IH]; intros i m w I; [now left|]. cbn [build] in I. apply IH in I as [I|(j & -> & B)]; [|right; exists j; split; [reflexivity|cbn [List.length]; lia]].
  apply set_values in I as [-> |I]; [right; exists i; split; [reflexivity|cbn [List.length]; lia]|now left].
Qed.
Definition definitions_present (same_key : list N -> list N -> bool) (r : raw) : Prop :=
  forall o s, (In o (flat_map scene_objs (rw_layers r)) \/ In o (map snd (rw_symdefs r))) -> In s (symbols 0 o) -> exists k, In k (map fst (rw_symdefs r)) /\ same_key (sym_ref s) k = true.
Theorem C98_symbols same_key root r : equivalence same_key -> read_raw root = Ok r -> definitions_present same_key r -> exists s b, read_scene same_key root = Ok (s, b).
Proof.
  intros EQ R D. unfold read_scene. rewrite R. cbn [bind]. unfold resolve. set (defs := map snd (rw_symdefs r)). set (m := build same_key 0 (rw_symdefs r) []).
  assert (FOUND : forall o s, (In o (flat_map scene_objs (rw_layers r)) \/ In o defs) -> In s (symbols 0 o) -> map_find same_key (sym_ref s) m <> None).
  { intros o s O I. destruct (D o s O I) as (k & J & E). apply build_found; [exact EQ|right; eauto]. }
  assert (ROUND : round_ok same_key defs m = true).
  { unfold round_ok. apply forallb_forall. intros e I. assert (V : In (snd e) (map snd m)) by (apply in_map; exact I). apply build_values in V as [[]|(j & -> & _ & B)]. cbn [Nat.add] in B.
    destruct (nth_error defs j) as [d|] eqn:ND; [|apply nth_error_None in ND; unfold defs in ND; rewrite map_length in ND; lia]. apply forallb_forall. intros s J.
    specialize (FOUND d s (or_intror (nth_error_In _ _ ND)) J). destruct (map_find same_key (sym_ref s) m); [reflexivity|congruence]. }
  assert (RES : forall objs, (forall o, In o objs -> In o (flat_map scene_objs (rw_layers r))) -> resolve_symbols same_key defs objs m = Ok m).
  { induction objs as [|o objs IH]; intros S; [reflexivity|]. cbn [resolve_symbols]. rewrite ROUND.
    assert (own_symbols same_key m o = m) as ->; [|apply IH; intros x I; apply S; now right].
    unfold own_symbols. assert (F : forall s, In s (symbols 0 o) -> map_find same_key (sym_ref s) m <> None) by (intros s I; apply (FOUND o); [left; apply S; now left|exact I]).
    revert F. generalize (symbols 0 o) as l. induction l as [|s l IHl]; intros F; [reflexivity|]. cbn [fold_left]. destruct (map_find same_key (sym_ref s) m) eqn:E; [|exfalso; apply (F s); [now left|exact E]].
    apply IHl. intros x I. apply F. now right. }
  rewrite RES by auto. cbn [bind]. eauto.
Qed.
(** Two trusses with the chair, and its definition. *)
Definition defined : node :=
  Elem T"GeneralSceneDescription" [] [Elem T"Scene" [] [Elem T"AUXData" [] [Elem T"Symdef" [(T"uuid", T"00000000-0000-0000-0000-000000000030")] []];
    Elem T"Layers" [] [Elem T"Layer" [(T"uuid", T"00000000-0000-0000-0000-000000000001")] [Elem T"ChildList" [] [truss_with [chair]; truss_with [chair]]]]]].
Lemma exact_equivalence : equivalence eqb_bytes.
Proof.
  split; [intros a; apply eqb_bytes_refl|]. split; [intros a b E; apply eqb_bytes_iff in E; subst; apply eqb_bytes_refl|]. intros a b c E F. apply eqb_bytes_iff in E, F. subst. apply eqb_bytes_refl.
Qed.
Example C98_symbols_case : exists r, read_raw defined = Ok r /\ definitions_present eqb_bytes r /\ List.length (flat_map (symbols 0) (flat_map scene_objs (rw_layers r))) = 2%nat.
Proof.
  assert (E : match read_raw defined with Ok r => forallb (fun s => existsb (eqb_bytes (sym_ref s)) (map fst (rw_symdefs r))) (flat_map (symbols 0) (flat_map scene_objs (rw_layers r) ++ map snd (rw_symdefs r)))
    && (List.length (flat_map (symbols 0) (flat_map scene_objs (rw_layers r))) =? 2)%nat | _ => false end = true) by (vm_compute; reflexivity).
  destruct (read_raw defined) as [r| | |]; try discriminate E. exists r. apply andb_prop in E as (E1 & E2). split; [reflexivity|]. split; [|now apply Nat.eqb_eq].
  intros o s O I. rewrite forallb_forall in E1. specialize (E1 s). destruct (existsb (eqb_bytes (sym_ref s)) (map fst (rw_symdefs r))) eqn:X.
  - apply existsb_exists in X as (k & J & K). eauto.
  - discriminate E1. apply in_flat_map. exists o. split; [apply in_or_app; tauto|exact I].
Qed.
(** *** Malformed GUIDs *)
(** Any attribute "uuid" that is neither empty nor as long as a GUID makes reading undefined. *)
Theorem C98_uuid c s b attrs kids name : In c [SSymdef; SPosition; SClass; SMapDef; SSymbol; SLayer; SGroup; SFixture; SScenery; SFocusPoint; STruss; SSupport; SVideoScreen; SProjector] ->
  get_attr T"uuid" attrs = Some b -> text_of b = Ok s -> nlen s <> 0 -> nlen s <> 36 -> nlen s <> 47 -> sread_node c (Elem name attrs kids) = UB.
Proof.
  intros I G E N0 N1 N2. unfold sread_node. cbn [depth read_sobj].
  assert (GU : guid_of s = UB).
  { unfold guid_of, read_uuid, uuid_input. apply N.eqb_neq in N0, N1, N2. rewrite N0, N1, N2. cbn [bind]. change (uuid_of_text zero_uuid []) with (Some zero_uuid). reflexivity. }
  assert (H : exists its, sreads c = ra "uuid" "fGuid" SGuid :: its).
  { cbn in I. repeat (destruct I as [<- |I]; [eexists; reflexivity|]). destruct I. }
  destruct H as (its & ->). cbn [read_items]. unfold read_item at 1, ra. unfold attr_text. change (txt "uuid") with (T"uuid"). rewrite G. cbn [bind]. rewrite E. cbn [bind]. unfold sread_conv at 1. rewrite GU. reflexivity.
Qed.
Theorem C98_uuid_refuted : exists root, read_scene eqb_bytes root = UB /\ root = layer [Elem T"Truss" [(T"uuid", T"truss-1")] []].
Proof. eexists. split; [|reflexivity]. vm_compute. reflexivity. Qed.

(** ** C99: objects with one GUID, in any file *)
Definition ided (o : sobj) : Prop := forall x, In x (scene_objs o) -> exists u, get "fGuid" (smembers x) = VUuid u.
Lemma guid_item c : in_scene c = true -> forallb (fun r => match r with RAttr _ f k | RNode _ f k | ROwn f k => negb (String.eqb "fGuid" f) || match k with SGuid => true | _ => false end | RCommand => true end) (sreads c) = true.
Proof. destruct c; intros E; try discriminate E; reflexivity. Qed.
Lemma guid_kept attrs kids its : forallb (fun r => match r with RAttr _ f k | RNode _ f k | ROwn f k => negb (String.eqb "fGuid" f) || match k with SGuid => true | _ => false end | RCommand => true end) its = true ->
  forall vs vs', (exists u, get "fGuid" vs = VUuid u) -> read_items attrs kids its vs = Ok vs' -> exists u, get "fGuid" vs' = VUuid u.
Proof.
  assert (CONV : forall f k vs s vs', negb (String.eqb "fGuid" f) || match k with SGuid => true | _ => false end = true -> (exists u, get "fGuid" vs = VUuid u) ->
    (do v <- sread_conv k (get f vs) s; Ok (put f v vs)) = Ok vs' -> exists u, get "fGuid" vs' = VUuid u).
  { intros f k vs s vs' B G E. destruct (sread_conv k (get f vs) s) as [v| | |] eqn:Q; try discriminate E. cbn [bind] in E. apply Ok_inj in E. subst vs'. rewrite get_put.
    destruct (String.eqb "fGuid" f); [|exact G]. destruct k; try discriminate B. cbn [sread_conv] in Q. destruct (guid_of s); try discriminate Q. cbn [bind] in Q. apply Ok_inj in Q. subst v. eauto. }
  induction its as [|r its IH]; intros B vs vs' G E; [apply Ok_inj in E; now subst|]. cbn [forallb] in B. apply andb_prop in B as (B1 & B2). cbn [read_items] in E.
  destruct (read_item attrs kids r vs) as [w| | |] eqn:R; try discriminate E. cbn [bind] in E. apply (IH B2 w vs'); [|exact E]. clear E IH. destruct r as [a f k|n f k|f k|]; cbn [read_item] in R.
  - destruct (attr_text a attrs) as [[s|]| | |]; try discriminate R; cbn [bind] in R; [now apply (CONV f k vs s w)|]. pose proof (CONV f k vs [] w B1 G) as C.
    destruct k as [[]| | | | | |]; try (exact (C R)). apply Ok_inj in R. now subst.
  - destruct (child_named n kids) as [[? ? ks|?|?|?|?|?]|]; try (apply Ok_inj in R; now subst). destruct (node_text ks) as [s| | |]; try discriminate R. cbn [bind] in R. now apply (CONV f k vs s w).
  - destruct (node_text kids) as [s| | |]; try discriminate R. cbn [bind] in R. now apply (CONV f k vs s w).
  - destruct (node_text kids) as [s| | |]; try discriminate R. cbn [bind] in R. unfold read_command in R. destruct (match tx_find s T"/percent" 0 false with Some p => _ | None => _ end) as (p, f).
    match type of R with bind ?x _ = _ => destruct x as [y| | |]; try discriminate R end. cbn [bind] in R. apply Ok_inj in R. subst w. rewrite !get_put. exact G.
Qed.
Lemma fresh_ided c : in_scene c = false -> ided (sfresh c).
Proof.
  intros E x I. unfold sfresh in I. rewrite scene_objs_eq, E, app_nil_r in I. exfalso. apply in_flat_map in I as (ks & J & I). apply in_map_iff in J as (s & <- & _). exact I.
Qed.
Lemma kinds_ided rd u kinds els l : Forall (fun e => forall c o, rd c (snd e) = Ok o -> ided o) els -> read_kinds rd u kinds els = Ok l -> Forall ided l.
Proof.
  intros F. revert l. induction F as [|(name, n) els H F IH]; intros l E; [apply Ok_inj in E; subst; constructor|]. cbn [read_kinds snd] in *. destruct (skind_of kinds name) as [c|]; [|now apply IH].
  destruct (u && negb (has_uuid n)); [now apply IH|]. destruct (rd c n) as [o| | |] eqn:R; try discriminate E. cbn [bind] in E. destruct (read_kinds rd u kinds els) as [os| | |]; try discriminate E. cbn [bind] in E.
  apply Ok_inj in E. subst l. constructor; [exact (H c o R)|now apply IH].
Qed.
Lemma slots_new c : forallb (fun s => match rs_mode s, rs_kinds s with ROne, (_, d) :: _ => negb (in_scene d) | _, _ => true end) (sslots c) = true.
Proof. destruct c; reflexivity. Qed.
Lemma read_ided : forall fuel c n o, read_sobj fuel c n = Ok o -> ided o.
Proof.
  induction fuel as [|fuel IH]; intros c n o E; [discriminate E|]. destruct n as [m a kids|?|?|?|?|?]; try discriminate E. cbn [read_sobj] in E.
  destruct (read_items a kids (sreads c) (sfields c)) as [vs| | |] eqn:RI; try discriminate E. cbn [bind] in E. destruct (sread_slots (read_sobj fuel) (sslots c) kids) as [kss| | |] eqn:RS; try discriminate E. cbn [bind] in E.
  apply Ok_inj in E. subst o.
  assert (KS : Forall (Forall ided) kss).
  { pose proof (slots_new c) as SN. clear RI. revert kss RS SN. induction (sslots c) as [|s ss IHs]; intros kss RS SN; [apply Ok_inj in RS; subst; constructor|]. cbn [forallb] in SN. apply andb_prop in SN as (SN1 & SN2).
    cbn [sread_slots] in RS. destruct (sread_slot (read_sobj fuel) s kids) as [l| | |] eqn:R1; try discriminate RS. cbn [bind] in RS. destruct (sread_slots (read_sobj fuel) ss kids) as [ls| | |] eqn:R2; try discriminate RS. cbn [bind] in RS.
    apply Ok_inj in RS. subst kss. constructor; [|now apply IHs]. unfold sread_slot in R1. match type of R1 with bind ?x _ = _ => destruct x as [l1| | |] eqn:R0; try discriminate R1 end. cbn [bind] in R1.
    assert (F1 : Forall ided l1).
    { assert (FROM : forall ks, match rs_mode s with
        | RAll => do els <- elements ks; read_kinds (read_sobj fuel) false (rs_kinds s) els
        | RAllUuid => do els <- elements ks; read_kinds (read_sobj fuel) true (rs_kinds s) els
        | ROpt | ROne => read_first (read_sobj fuel) (rs_kinds s) ks
        end = Ok l1 -> Forall ided l1).
      { intros ks Q. assert (ALL : forall u, (do els <- elements ks; read_kinds (read_sobj fuel) u (rs_kinds s) els) = Ok l1 -> Forall ided l1).
        { intros u Q1. destruct (elements ks) as [els| | |]; try discriminate Q1. cbn [bind] in Q1. eapply kinds_ided; [|exact Q1]. apply Forall_forall. intros e _ d o. apply IH. }
        assert (ONE : read_first (read_sobj fuel) (rs_kinds s) ks = Ok l1 -> Forall ided l1).
        { unfold read_first. intros Q1. destruct (rs_kinds s) as [|(nm, d) ?]; [apply Ok_inj in Q1; subst; constructor|]. destruct (child_named (txt nm) ks) as [x|]; [|apply Ok_inj in Q1; subst; constructor].
          destruct (read_sobj fuel d x) as [o| | |] eqn:Q2; try discriminate Q1. cbn [bind] in Q1. apply Ok_inj in Q1. subst l1. constructor; [exact (IH d x o Q2)|constructor]. }
        destruct (rs_mode s); auto; exact (ALL _ Q). }
      destruct (rs_container s) as [co|]; [|exact (FROM kids R0)]. destruct (child_named co kids) as [[? ? ks|?|?|?|?|?]|]; try (apply Ok_inj in R0; subst; constructor). exact (FROM ks R0). }
    apply Ok_inj in R1. subst l. destruct (rs_mode s); try exact F1. destruct l1 as [|o l1]; [|exact F1]. destruct (rs_kinds s) as [|(nm, d) ?]; [exact F1|]. constructor; [|constructor]. apply fresh_ided. now destruct (in_scene d). }
  intros x I. rewrite scene_objs_eq in I. apply in_app_or in I as [I|I].
  - apply in_flat_map in I as (ks & I1 & I). apply in_flat_map in I as (k & I2 & I). rewrite Forall_forall in KS. specialize (KS ks I1). rewrite Forall_forall in KS. exact (KS k I2 x I).
  - destruct (in_scene c) eqn:SC; [|destruct I]. destruct I as [<- |[]]. cbn [smembers]. apply (guid_kept a kids (sreads c) (guid_item c SC) (sfields c) vs); [|exact RI]. exists zero_uuid. destruct c; try discriminate SC; reflexivity.
Qed.
Lemma layers_ided root r : read_raw root = Ok r -> Forall ided (rw_layers r).
Proof.
  unfold read_raw. destruct root as [m a kids|?|?|?|?|?]; try (intros E; apply Ok_inj in E; subst; constructor). destruct (in_child T"UserData" kids [] read_data) as [data| | |]; try discriminate. cbn [bind].
  unfold in_child at 1. destruct (child_named T"Scene" kids) as [[? ? skids|?|?|?|?|?]|]; try (intros E; apply Ok_inj in E; subst; constructor).
  match goal with |- bind ?x _ = _ -> _ => destruct x as [r0| | |]; try discriminate end. cbn [bind]. match goal with |- bind ?x _ = _ -> _ => destruct x as [ls| | |] eqn:L; try discriminate end. cbn [bind].
  intros E. apply Ok_inj in E. subst r. cbn [rw_layers]. unfold in_child in L. destruct (child_named T"Layers" skids) as [[? ? ks|?|?|?|?|?]|]; try (apply Ok_inj in L; subst; constructor).
  destruct (elements ks) as [els| | |]; try discriminate L. cbn [bind] in L. eapply kinds_ided; [|exact L]. apply Forall_forall. intros e _ c o. apply read_ided.
Qed.
(** The GUIDs of the objects, in the order in which they are added. *)
Definition guids (o : sobj) : list val := map (fun x => get "fGuid" (smembers x)) (scene_objs o).
Lemma map_flat {A B C} (f : B -> C) (g : A -> list B) l : map f (flat_map g l) = flat_map (fun x => map f (g x)) l.
Proof. induction l as [|x l IH]; [reflexivity|]. cbn [flat_map]. now rewrite map_app, IH. Qed.
Lemma guids_eq c vs kss : guids (SObj c vs kss) = flat_map (flat_map guids) kss ++ (if in_scene c then [get "fGuid" vs] else []).
Proof.
  unfold guids at 1. rewrite scene_objs_eq, map_app. f_equal; [|now destruct (in_scene c)]. rewrite map_flat. apply flat_map_same, Forall_forall. intros ks _. apply map_flat.
Qed.
Lemma flat_map_map {A B C} (f : A -> B) (g : B -> list C) l : flat_map g (map f l) = flat_map (fun x => g (f x)) l.
Proof. induction l as [|x l IH]; [reflexivity|]. cbn [map flat_map]. now rewrite IH. Qed.
Lemma slots_same (f : sobj -> sobj) kss : Forall (Forall (fun o => guids (f o) = guids o)) kss -> flat_map (flat_map guids) (map (map f) kss) = flat_map (flat_map guids) kss.
Proof.
  intros F. rewrite flat_map_map. apply flat_map_same. eapply Forall_impl; [|exact F]. intros ks G. cbv beta in *. rewrite flat_map_map. now apply flat_map_same.
Qed.
Lemma map_guids f o : (forall c vs, get "fGuid" (f c vs) = get "fGuid" vs) -> guids (map_obj f o) = guids o.
Proof.
  intros K. induction o as [c vs kss IH] using sobj_induction. cbn [map_obj]. rewrite !guids_eq, K. f_equal. now apply slots_same.
Qed.
Lemma clear_kept f vs : f <> "fGuid"%string -> get "fGuid" (clear f vs) = get "fGuid" vs.
Proof. intros N. unfold clear. destruct (get f vs); try reflexivity. rewrite get_put. destruct (String.eqb "fGuid" f) eqn:E; [apply String.eqb_eq in E; congruence|reflexivity]. Qed.
Lemma relink_kept f t l vs : f <> "fGuid"%string -> get "fGuid" (relink f t l vs) = get "fGuid" vs.
Proof. intros N. unfold relink. destruct (get f vs); try reflexivity. rewrite get_put. destruct (String.eqb "fGuid" f) eqn:E; [apply String.eqb_eq in E; congruence|reflexivity]. Qed.
Lemma cleared_guids o : guids (clear_all o) = guids o.
Proof. apply map_guids. intros. now apply clear_kept. Qed.
Lemma symbol_guids same_key defs m o : guids (link_symbol same_key defs m o) = guids o.
Proof.
  assert (H : forall kss, flat_map (flat_map guids) (map (map (map_obj (fun _ => clear "fSymDef"))) kss) = flat_map (flat_map guids) kss).
  { intros kss. apply slots_same. apply Forall_forall. intros ks _. apply Forall_forall. intros k _. apply cleared_guids. }
  destruct o as [c vs kss]. destruct c; cbn [link_symbol]; rewrite !guids_eq, H; reflexivity.
Qed.
Lemma own_guids same_key defs m o : guids (link_own same_key defs m o) = guids o.
Proof.
  induction o as [c vs kss IH] using sobj_induction. cbn [link_own]. rewrite !guids_eq. f_equal. destruct kss as [|geos rest]; [reflexivity|]. cbn [map flat_map]. inversion IH as [|? ? _ I2]; subst. f_equal; [|now apply slots_same].
  destruct (in_scene c); rewrite flat_map_map; apply flat_map_same, Forall_forall; intros k _; [apply symbol_guids|apply cleared_guids].
Qed.
Lemma keep_kept seen vs : get "fGuid" (keep_multi seen vs) = get "fGuid" vs.
Proof. unfold keep_multi. destruct (get "fMultipatchObj" vs); try reflexivity. destruct (existsb (eqb_bytes s) seen); [reflexivity|]. now rewrite get_put. Qed.
Lemma multi_guids o : forall seen, guids (fst (multi seen o)) = guids o.
Proof.
  induction o as [c vs kss IH] using sobj_induction. intros seen. rewrite multi_eq.
  assert (H : flat_map (flat_map guids) (fst (multi_slots seen kss)) = flat_map (flat_map guids) kss).
  { revert seen. induction IH as [|ks kss H1 _ IH2]; intros seen; [reflexivity|]. cbn [multi_slots].
    assert (L : forall seen, flat_map guids (fst (multi_list seen ks)) = flat_map guids ks).
    { clear -H1. induction H1 as [|k ks H2 _ IH3]; intros seen; [reflexivity|]. cbn [multi_list]. specialize (H2 seen). destruct (multi seen k) as (k', s1). cbn [fst] in H2. specialize (IH3 s1).
      destruct (multi_list s1 ks) as (r', s2). cbn [fst flat_map] in *. congruence. }
    specialize (L seen). destruct (multi_list seen ks) as (ks', s1). specialize (IH2 s1). destruct (multi_slots s1 kss) as (r', s2). cbn [fst flat_map] in *. congruence. }
  destruct (multi_slots seen kss) as (kss', seen'). cbn [fst] in *. rewrite !guids_eq, keep_kept. now f_equal.
Qed.
Lemma multis_guids l : forall seen, flat_map guids (multis seen l) = flat_map guids l.
Proof.
  induction l as [|o l IH]; intros seen; [reflexivity|]. cbn [multis]. pose proof (multi_guids o seen) as M. destruct (multi seen o) as (o', s'). cbn [fst flat_map] in *. now rewrite M, IH.
Qed.
(** Two places in the list of GUIDs. *)
Lemma clash_iff s : clash s <-> exists a u b c, flat_map guids (sc_layers s) = a ++ u :: b ++ u :: c.
Proof.
  assert (ONE : forall e, lefts e = [] \/ exists b, lefts e = [b]) by (intros [o|o]; cbn [lefts]; [now left|]; destruct (in_scene (sclass o)); eauto).
  assert (INV : forall e p, lefts e = [p] -> e = Left p /\ in_scene (sclass p) = true).
  { intros [o|o] p E; [discriminate E|]. cbn [lefts] in E. destruct (in_scene (sclass o)) eqn:S; [|discriminate E]. injection E as <-. auto. }
  assert (G : flat_map guids (sc_layers s) = map (fun x => get "fGuid" (smembers x)) (flat_map lefts (flat_map walk (sc_layers s)))) by (rewrite <- walked_all; symmetry; apply map_flat).
  rewrite G. split.
  - intros (a & p & b & q & c & E & SP & SQ & H). rewrite E. exists (map (fun x => get "fGuid" (smembers x)) (flat_map lefts a)), (get "fGuid" (smembers p)), (map (fun x => get "fGuid" (smembers x)) (flat_map lefts b)), (map (fun x => get "fGuid" (smembers x)) (flat_map lefts c)).
    rewrite flat_map_app. cbn [flat_map lefts]. rewrite SP. cbn [app]. rewrite flat_map_app. cbn [flat_map lefts]. rewrite SQ. cbn [app]. rewrite map_app. cbn [map]. rewrite map_app. cbn [map]. now rewrite H.
  - intros (a & u & b & c & E). apply map_eq_app in E as (x & y & E & _ & EY). destruct y as [|p y]; [discriminate EY|]. cbn [map] in EY. injection EY as EP EY. apply map_eq_app in EY as (y1 & z & -> & _ & EZ).
    destruct z as [|q z]; [discriminate EZ|]. cbn [map] in EZ. injection EZ as EQ _. destruct (filter_split lefts ONE _ _ _ _ E) as (a1 & e1 & r1 & EW & E1 & _ & ER).
    destruct (filter_split lefts ONE _ _ _ _ ER) as (b1 & e2 & c1 & -> & E2 & _ & _). apply INV in E1 as (-> & SP). apply INV in E2 as (-> & SQ). exists a1, p, b1, q, c1. split; [exact EW|]. split; [exact SP|]. split; [exact SQ|]. congruence.
Qed.
Lemma twice_guids l : Forall ided l -> twice [] (map uuid_of_obj (flat_map scene_objs l)) = true <-> exists a u b c, flat_map guids l = a ++ u :: b ++ u :: c.
Proof.
  intros F. assert (ID : forall x, In x (flat_map scene_objs l) -> get "fGuid" (smembers x) = VUuid (uuid_of_obj x)).
  { intros x I. apply in_flat_map in I as (o & I1 & I2). rewrite Forall_forall in F. destruct (F o I1 x I2) as (u & G). unfold uuid_of_obj. now rewrite G. }
  assert (G : flat_map guids l = map VUuid (map uuid_of_obj (flat_map scene_objs l))).
  { rewrite map_map. unfold guids. rewrite <- map_flat. apply map_ext_in. exact ID. }
  rewrite G, twice_iff. clear. generalize (map uuid_of_obj (flat_map scene_objs l)) as us. intros us. split.
  - intros (a & u & b & -> & [[]|I]). apply in_split in I as (a1 & a2 & ->). exists (map VUuid a1), (VUuid u), (map VUuid a2), (map VUuid b). rewrite <- app_assoc. cbn [app]. now rewrite map_app, map_cons, map_app, map_cons.
  - intros (a & u & b & c & E). apply map_eq_app in E as (x & y & -> & _ & E). destruct y as [|v y]; [discriminate E|]. cbn [map] in E. injection E as EU E. apply map_eq_app in E as (y1 & z & -> & _ & E).
    destruct z as [|w z]; [discriminate E|]. cbn [map] in E. injection E as EW _. assert (v = w) as -> by congruence. exists (x ++ w :: y1), w, z. split; [now rewrite <- app_assoc|]. right. apply in_or_app. right. now left.
Qed.
Theorem C99_duplicates same_key root s b : read_scene same_key root = Ok (s, b) -> (b = true <-> clash s).
Proof.
  unfold read_scene. destruct (read_raw root) as [r| | |] eqn:R; try discriminate. cbn [bind]. unfold resolve. match goal with |- bind ?x _ = _ -> _ => destruct x as [m| | |]; try discriminate end. cbn [bind].
  intros E. apply Ok_inj in E. injection E as ES EB. rewrite <- EB. rewrite (twice_guids _ (layers_ided root r R)). rewrite clash_iff. subst s. cbn [sc_layers]. rewrite multis_guids.
  rewrite flat_map_map. match goal with |- context [flat_map ?f (rw_layers r)] => lazymatch f with guids => fail | _ => rewrite (flat_map_same f guids) end end; [reflexivity|]. apply Forall_forall. intros o _. rewrite own_guids. apply map_guids. intros c vs.
  assert (K : forall v, get "fGuid" ((if in_scene c then relink "fClass" eqb_bytes (map guid_text (rw_classes r)) v else clear "fClass" v)) = get "fGuid" v) by (intros v; destruct (in_scene c); [now apply relink_kept|now apply clear_kept]).
  cbv beta. rewrite K. destruct c; try reflexivity. rewrite relink_kept by discriminate. now apply relink_kept.
Qed.
(** Two trusses with one GUID; different ones. *)
Definition truss_id (s : string) : node := Elem T"Truss" [(T"uuid", txt s)] [].
Example C99_case :
  (exists s, read_scene eqb_bytes (layer [truss_id "00000000-0000-0000-0000-00000000000a"; truss_id "00000000-0000-0000-0000-00000000000A"]) = Ok (s, true) /\ clash s) /\
  exists s, read_scene eqb_bytes (layer [truss_id "00000000-0000-0000-0000-00000000000a"; truss_id "00000000-0000-0000-0000-00000000000b"]) = Ok (s, false) /\ ~ clash s.
Proof.
  split.
  - assert (E : match read_scene eqb_bytes (layer [truss_id "00000000-0000-0000-0000-00000000000a"; truss_id "00000000-0000-0000-0000-00000000000A"]) with Ok (_, b) => b | _ => false end = true) by (vm_compute; reflexivity).
    destruct (read_scene _ _) as [(s, b)| | |] eqn:R; try discriminate E. subst b. exists s. split; [reflexivity|]. now apply (C99_duplicates _ _ _ _ R).
  - assert (E : match read_scene eqb_bytes (layer [truss_id "00000000-0000-0000-0000-00000000000a"; truss_id "00000000-0000-0000-0000-00000000000b"]) with Ok (_, b) => b | _ => true end = false) by (vm_compute; reflexivity).
    destruct (read_scene _ _) as [(s, b)| | |] eqn:R; try discriminate E. subst b. exists s. split; [reflexivity|]. intros C. apply (C99_duplicates _ _ _ _ R) in C. discriminate C.
Qed.

(** ** C100: addresses *)
Lemma count_step f abs u : count_universe (S f) abs u = if u * 512 mod size_max <? abs then count_universe f abs ((u + 1) mod size_max) else Ok u.
Proof. reflexivity. Qed.
Lemma count_eq abs : abs <= 2 ^ 64 - 512 -> forall k u, 1 <= u -> u * 512 <= 2 ^ 64 - 512 -> (abs <= u * 512 -> k = O) -> (abs > u * 512 -> (u + N.of_nat k - 1) * 512 < abs <= (u + N.of_nat k) * 512) ->
  count_universe (S k) abs u = Ok (u + N.of_nat k).
Proof.
  intros A. induction k as [|k IH]; intros u U B Z P; rewrite count_step; unfold size_max; change two64 with (2 ^ 64); rewrite N.mod_small by (change (2 ^ 64) with 18446744073709551616 in *; lia).
  - destruct (u * 512 <? abs) eqn:L; [|f_equal; lia]. apply N.ltb_lt in L. lia.
  - destruct (u * 512 <? abs) eqn:L; [|apply N.ltb_ge in L; specialize (Z L); discriminate Z]. apply N.ltb_lt in L. assert (P' := P ltac:(lia)). clear P Z.
    rewrite N.mod_small by (change (2 ^ 64) with 18446744073709551616 in *; lia). rewrite (IH (u + 1)); [f_equal; lia|lia| | |].
    + change (2 ^ 64) with 18446744073709551616 in *. lia.
    + intros H. destruct k; [reflexivity|]. lia.
    + intros H. lia.
Qed.
(** The universe of an address: the first one whose end is not below it. *)
Theorem C100_universe abs : abs <= 2 ^ 64 - 512 ->
  exists u, (exists fuel, count_universe fuel abs 1 = Ok u) /\ 1 <= u /\ abs <= u * 512 /\ (u = 1 \/ (u - 1) * 512 < abs).
Proof.
  intros A. destruct (N.le_gt_cases abs 512) as [L|L].
  - exists 1. split; [exists 1%nat; rewrite (count_eq abs A 0 1); [reflexivity|lia|vm_compute; discriminate|reflexivity|lia]|]. lia.
  - set (k := (abs - 1) / 512). assert (D := N.div_mod (abs - 1) 512 ltac:(lia)). assert (M := N.mod_lt (abs - 1) 512 ltac:(lia)). fold k in D. exists (1 + k). split; [|split; [lia|split; [lia|right; lia]]].
    exists (S (N.to_nat k)). rewrite (count_eq abs A (N.to_nat k) 1); [f_equal; lia|lia|vm_compute; discriminate|lia|]. intros _. lia.
Qed.
(** The others are above every multiple of 512: counting never ends. *)
Lemma count_never abs : 2 ^ 64 - 512 < abs -> forall fuel u, count_universe fuel abs u = Loop.
Proof.
  intros A. induction fuel as [|fuel IH]; intros u; [reflexivity|]. cbn [count_universe]. assert (M : u * 512 mod size_max <= 2 ^ 64 - 512).
  { unfold size_max. change two64 with (2 ^ 55 * 512). rewrite N.mul_mod_distr_r by discriminate. assert (H := N.mod_lt u (2 ^ 55) ltac:(discriminate)). change (2 ^ 64) with (2 ^ 55 * 512). change (2 ^ 55) with 36028797018963968 in *. lia. }
  assert (u * 512 mod size_max <? abs = true) as -> by (apply N.ltb_lt; lia). apply IH.
Qed.
Theorem C100_never abs : abs < 2 ^ 64 -> (forall fuel, count_universe fuel abs 1 = Loop) <-> 2 ^ 64 - 512 < abs.
Proof.
  intros B. split; [|intros A fuel; now apply count_never]. intros H. destruct (N.le_gt_cases abs (2 ^ 64 - 512)) as [L|L]; [|exact L]. destruct (C100_universe abs L) as (u & (fuel & E) & _). rewrite H in E. discriminate E.
Qed.
(** Universe and address that were set come back; universe 0 counts as the first. *)
Theorem C100_address universe address : universe < 2 ^ 54 -> 1 <= address <= 512 ->
  exists fuel, count_universe fuel (address_of universe address) 1 = Ok (N.max 1 universe) /\ address_in (address_of universe address) (N.max 1 universe) = address.
Proof.
  intros U A. assert (E : address_of universe address = (N.max 1 universe - 1) * 512 + address).
  { unfold address_of, size_max. change two64 with 18446744073709551616. change (2 ^ 54) with 18014398509481984 in U. destruct (universe =? 0) eqn:Z; [apply N.eqb_eq in Z; subst universe|apply N.eqb_neq in Z].
    - change (N.max 1 0 - 1) with 0. change (0 * 512 mod 18446744073709551616) with 0. change (0 * 512) with 0. rewrite N.mod_small by lia. reflexivity.
    - replace (N.max 1 universe) with universe by lia. rewrite (N.mod_small ((universe - 1) * 512)) by lia. now rewrite N.mod_small by lia. }
  rewrite E. set (v := N.max 1 universe) in *. assert (V : 1 <= v < 2 ^ 54) by (unfold v; change (2 ^ 54) with 18014398509481984 in *; lia). clearbody v. clear E. change (2 ^ 54) with 18014398509481984 in V.
  assert (B : (v - 1) * 512 + address <= 2 ^ 64 - 512) by (change (2 ^ 64) with 18446744073709551616; lia).
  exists (S (N.to_nat (v - 1))). split.
  - rewrite (count_eq _ B (N.to_nat (v - 1)) 1); [f_equal; lia|lia|vm_compute; discriminate|lia|]. intros _. lia.
  - unfold address_in, size_max. change two64 with 18446744073709551616. change (2 ^ 64) with 18446744073709551616 in B.
    replace (v + 18446744073709551616 - 1) with (v - 1 + 1 * 18446744073709551616) by lia. rewrite N.mod_add by lia. rewrite (N.mod_small (v - 1)) by lia. rewrite (N.mod_small (512 * (v - 1))) by lia.
    replace ((v - 1) * 512 + address + 18446744073709551616 - 512 * (v - 1)) with (address + 1 * 18446744073709551616) by lia. rewrite N.mod_add by lia. apply N.mod_small. lia.
Qed.
Example C100_case : count_universe 4 (address_of 3 17) 1 = Ok 3 /\ address_of 3 17 = 1041 /\ address_in 1041 3 = 17 /\ address_of 0 17 = 17.
Proof. vm_compute. auto. Qed.
(** An address 0 does not come back: it is the last one of the universe before. *)
Theorem C100_zero_refuted : exists universe, universe < 2 ^ 54 /\ exists u, count_universe 2 (address_of universe 0) 1 = Ok u /\ u <> universe /\ address_in (address_of universe 0) u = 512.
Proof. exists 2. split; [reflexivity|]. exists 1. vm_compute. repeat split; discriminate. Qed.
(** A file can hold an address whose universe is never found. *)
Definition with_address : node := layer [Elem T"Fixture" [(T"uuid", T"00000000-0000-0000-0000-000000000002")] [Elem T"Addresses" [] [Elem T"Address" [(T"break", T"0")] [Text T"-1"]]]].
Definition addresses (o : sobj) : list N := match o with SObj SFixture _ kss => flat_map (fun a => match get "fAbsuluteAdress" (smembers a) with VNat n => [n] | _ => [] end) (nth 6 kss []) | _ => [] end.
Theorem C100_file_refuted : exists root s o abs, read_scene eqb_bytes root = Ok (s, false) /\ within_any o (sc_layers s) /\ addresses o = [abs] /\ forall fuel, count_universe fuel abs 1 = Loop.
Proof.
  exists with_address. assert (E : match read_scene eqb_bytes with_address with Ok (s, b) => negb b && match flat_map scene_objs (sc_layers s) with [o] => match addresses o with [a] => (2 ^ 64 - 512 <? a) | _ => false end | _ => false end | _ => false end = true) by (vm_compute; reflexivity).
  destruct (read_scene eqb_bytes with_address) as [(s, b)| | |]; try discriminate E. destruct b; [discriminate E|]. cbn [negb andb] in E. destruct (flat_map scene_objs (sc_layers s)) as [|o [|]] eqn:F; try discriminate E. destruct (addresses o) as [|a [|]] eqn:AD; try discriminate E.
  exists s, o, a. split; [reflexivity|]. split; [apply objs_within; rewrite F; now left|]. split; [exact AD|]. intros fuel. apply count_never. now apply N.ltb_lt.
Qed.
Print Assumptions C98_ends.
Print Assumptions C98_dangling.
Print Assumptions C98_symbols.
Print Assumptions C98_uuid.
Print Assumptions C98_uuid_refuted.
Print Assumptions C99_duplicates.
Print Assumptions C100_universe.
Print Assumptions C100_never.
Print Assumptions C100_address.
Print Assumptions C100_zero_refuted.
Print Assumptions C100_file_refuted.
