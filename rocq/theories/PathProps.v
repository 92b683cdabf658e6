(** C20 (unpacking stays inside the folder), C56 (name sanitising), C57 (folder extraction). *)
From Coq Require Import String List NArith ZArith Lia Bool.
From Coq Require Import ZifyN ZifyNat ZifyBool.
From Verif Require Import Bytes BytesProofs Txt UtfSpec StringModel StringSpec StringProofs ConvProps PathModel PathSpec PathProofs PathProofs2.
Import ListNotations.
Open Scope N_scope.

(** ** C56 *)
(** The characters allowed in names: from space to 'z' without ! ? [ \ ] ^ *)
Definition allowed (c : N) : Prop := 32 <= c /\ c <= 122 /\ ~ In c [33; 63; 91; 92; 93; 94].
Lemma valid_allowed c : is_valid_name_char c = true <-> allowed c.
Proof. unfold is_valid_name_char, allowed. cbn [In]. lia. Qed.

(** [Keeps P s r]: [r] is [s] without the elements that do not satisfy [P]; order kept. *)
Inductive Keeps (P : N -> Prop) : list N -> list N -> Prop :=
| keeps_nil : Keeps P [] []
| keeps_in c s r : P c -> Keeps P s r -> Keeps P (c :: s) (c :: r)
| keeps_out c s r : ~ P c -> Keeps P s r -> Keeps P (c :: s) r.

Lemma sanitize_loop_ok : forall s fuel pre, (List.length s < fuel)%nat ->
  exists r, sanitize_loop fuel (pre ++ s) (nlen pre) = Done (pre ++ r) /\ Keeps allowed s r.
Proof.
  induction s as [|c s IH]; intros fuel pre L; destruct fuel as [|fuel]; cbn [List.length] in L; try lia; cbn [sanitize_loop].
  - rewrite app_nil_r. rewrite N.ltb_irrefl. exists []. rewrite app_nil_r. split; [reflexivity|constructor].
  - rewrite nlen_app, nlen_cons. replace (nlen pre <? _) with true by lia.
    replace (nth (N.to_nat (nlen pre)) (pre ++ c :: s) 0) with c.
    2:{ rewrite app_nth2; unfold nlen; [|lia]. replace (_ - _)%nat with O by lia. reflexivity. }
    destruct (is_valid_name_char c) eqn:E.
    + replace (nlen pre + 1) with (nlen (pre ++ [c])) by (rewrite nlen_app, nlen_cons, nlen_nil; lia).
      change (c :: s) with ([c] ++ s). rewrite app_assoc.
      destruct (IH fuel (pre ++ [c]) ltac:(lia)) as (r & E1 & K). exists (c :: r). rewrite E1, <- app_assoc.
      split; [reflexivity|]. constructor; [now apply valid_allowed|assumption].
    + replace (delete (pre ++ c :: s) (nlen pre) 1) with (pre ++ s).
      2:{ unfold delete. rewrite nlen_app, nlen_cons. replace (nlen pre <? _) with true by lia.
          rewrite firstn_len_app. f_equal. replace (nlen pre + 1) with (nlen (pre ++ [c])) by (rewrite nlen_app, nlen_cons, nlen_nil; lia).
          change (c :: s) with ([c] ++ s). rewrite app_assoc, skipn_len_app. reflexivity. }
      destruct (IH fuel pre ltac:(lia)) as (r & E1 & K). exists r. split; [assumption|].
      constructor; [|assumption]. intros A. apply valid_allowed in A. congruence.
Qed.
(** The filter ends and keeps exactly the allowed characters, in order. *)
Theorem C56_keeps : forall name, exists r, sanitize name = Done r /\ Keeps allowed name r.
Proof. intros name. exact (sanitize_loop_ok name (S (List.length name)) [] ltac:(lia)). Qed.
Print Assumptions C56_keeps.
Lemma keeps_fun P s : forall r r', Keeps P s r -> Keeps P s r' -> r = r'.
Proof.
  induction s as [|c s IH]; intros r r' K1 K2; inversion K1; inversion K2; subst; try reflexivity; try contradiction; [f_equal|]; now apply IH.
Qed.
Lemma keeps_all P s r : Keeps P s r -> Forall P r.
Proof. induction 1; auto. Qed.
Lemma keeps_id P s : Forall P s -> Keeps P s s.
Proof. induction 1; constructor; auto. Qed.
(** Idempotent; allowed names are unchanged. *)
Theorem C56_idempotent : forall name r, sanitize name = Done r -> Forall allowed r /\ sanitize r = Done r.
Proof.
  intros name r E. destruct (C56_keeps name) as (r1 & E1 & K1). rewrite E in E1. injection E1 as <-.
  pose proof (keeps_all _ _ _ K1) as F. split; [assumption|].
  destruct (C56_keeps r) as (r2 & E2 & K2). now rewrite E2, (keeps_fun _ _ _ _ K2 (keeps_id _ _ F)).
Qed.
Print Assumptions C56_idempotent.
Theorem C56_unchanged_iff : forall name, sanitize name = Done name <-> Forall allowed name.
Proof.
  intros name. split.
  - intros E. now apply (C56_idempotent name name).
  - intros F. destruct (C56_keeps name) as (r & E & K). now rewrite E, (keeps_fun _ _ _ _ K (keeps_id _ _ F)).
Qed.
Print Assumptions C56_unchanged_iff.
Example C56_case : sanitize (T"Spot [1]! ~x") = Done (T"Spot 1 x").
Proof. reflexivity. Qed.

(** ** C57 *)
Lemma extract_ok : forall n s fuel acc, List.length s = n -> (n < fuel)%nat ->
  exists qs file, extract_loop fuel acc s = Done (acc ++ join 47 qs, file) /\ s = join 47 qs ++ file
    /\ Forall (fun q => q <> [] /\ ~ In 47 q) qs /\ (In 47 file -> exists r, file = 47 :: r).
Proof.
  induction n as [n IH] using lt_wf_ind. intros s fuel acc En L. destruct fuel as [|fuel]; [lia|]. cbn [extract_loop].
  destruct (in_dec N.eq_dec 47 s) as [Hin|Hn].
  - assert (K : exists p t, s = p ++ 47 :: t /\ ~ In 47 p).
    { clear -Hin. induction s as [|c s IH]; [destruct Hin|]. destruct (N.eq_dec c 47) as [->|H].
      - exists [], s. auto.
      - destruct IH as (p & t & -> & Hp); [destruct Hin; [congruence|assumption]|]. exists (c :: p), t. split; [reflexivity|].
        intros [?|?]; [congruence|contradiction]. }
    destruct K as (p & t & -> & Hp).
    pose proof (find_ch_at [] p 47 t 0 Hp (N.le_refl 0) (N.le_0_l _)) as F. cbn [app] in F.
    change (nlen (@nil N)) with 0 in F. rewrite N.add_0_l in F. rewrite F. destruct p as [|c p].
    + change (0 <? nlen (@nil N)) with false. cbv iota. exists [], (47 :: t). cbn [join flat_map]. rewrite app_nil_r. cbn [app].
      split; [reflexivity|]. split; [reflexivity|]. split; [constructor|eauto].
    + remember (c :: p) as q eqn:Eq. assert (Hq : 0 < nlen q) by (subst q; rewrite nlen_cons; lia).
      replace (0 <? nlen q) with true by lia.
      assert (E1 : firstn (N.to_nat (nlen q + 1)) (q ++ 47 :: t) = q ++ [47]).
      { replace (nlen q + 1) with (nlen (q ++ [47])) by (rewrite nlen_app, nlen_cons, nlen_nil; lia).
        change (47 :: t) with ([47] ++ t). rewrite app_assoc. apply firstn_len_app. }
      assert (E2 : delete (q ++ 47 :: t) 0 (nlen q + 1) = t).
      { unfold delete. rewrite nlen_app, nlen_cons. replace (0 <? _) with true by lia. cbn [N.to_nat firstn app].
        rewrite N.add_0_l. replace (nlen q + 1) with (nlen (q ++ [47])) by (rewrite nlen_app, nlen_cons, nlen_nil; lia).
        change (47 :: t) with ([47] ++ t). rewrite app_assoc. apply skipn_len_app. }
      rewrite E1, E2. rewrite app_length in En. cbn [List.length] in En.
      destruct (IH (List.length t) ltac:(lia) t fuel (acc ++ q ++ [47]) eq_refl ltac:(lia)) as (qs & file & R1 & R2 & R3 & R4).
      exists (q :: qs), file. cbn [join flat_map]. fold (join 47 qs). rewrite R1. split; [now rewrite <- !app_assoc|].
      split; [rewrite <- !app_assoc; cbn [app]; now rewrite <- R2|].
      split; [|assumption]. constructor; [|assumption]. split; [subst q; discriminate|assumption].
  - rewrite find_none by assumption. exists [], s. cbn [join flat_map app]. rewrite app_nil_r.
    split; [reflexivity|]. split; [reflexivity|]. split; [constructor|contradiction].
Qed.
(** Splitting ends and loses nothing. *)
Theorem C57_lossless : forall path, exists folder file,
  extract_folder path = Done (folder, file) /\ folder ++ file = path.
Proof.
  intros path. destruct (extract_ok _ path (S (List.length path)) [] eq_refl ltac:(lia)) as (qs & file & E & Es & _).
  exists (join 47 qs), file. split; [exact E|now symmetry].
Qed.
Print Assumptions C57_lossless.
Lemma last_pieces a b : a <> [] -> removelast (a ++ pieces b) = a ++ removelast (pieces b).
Proof. intros _. apply removelast_app, pieces_ne. Qed.
(** The file name is free of separators exactly if the path has no leading and no double separator,
    i.e. only non-empty pieces before the last one; it is then the last piece. *)
Theorem C57_no_separator_iff : forall path folder file, extract_folder path = Done (folder, file) ->
  (~ In 47 file <-> Forall (fun p => p <> []) (removelast (pieces path))).
Proof.
  intros path folder file E.
  destruct (extract_ok _ path (S (List.length path)) [] eq_refl ltac:(lia)) as (qs & f & E' & Es & Fq & Hf).
  unfold extract_folder in E. rewrite E in E'. injection E' as _ <-. clear E folder.
  assert (Fn : Forall (fun p => ~ In 47 p) qs) by (eapply Forall_impl; [|exact Fq]; intros p (A & B); exact B).
  rewrite Es, pieces_join_app by assumption. rewrite removelast_app by apply pieces_ne. split.
  - intros H. rewrite pieces_one by assumption. cbn [removelast]. rewrite app_nil_r.
    eapply Forall_impl; [|exact Fq]. intros p (A & B). exact A.
  - intros F H. destruct (Hf H) as (r & ->). apply Forall_app in F as (_ & F). cbn [pieces] in F.
    change (47 =? 47) with true in F. cbv iota in F. destruct (pieces r) as [|x l] eqn:Er; [now apply pieces_ne in Er|].
    cbn [removelast] in F. inversion_clear F as [|? ? K _]. congruence.
Qed.
Print Assumptions C57_no_separator_iff.
Theorem C57_folder_extraction_partial : forall path, Forall (fun p => p <> []) (removelast (pieces path)) ->
  exists folder file, extract_folder path = Done (folder, file) /\ folder ++ file = path /\ ~ In 47 file
    /\ file = last (pieces path) [] /\ folder = join 47 (removelast (pieces path)).
Proof.
  intros path H. destruct (extract_ok _ path (S (List.length path)) [] eq_refl ltac:(lia)) as (qs & f & E' & Es & Fq & Hf).
  cbn [app] in E'. exists (join 47 qs), f. split; [exact E'|]. split; [now symmetry|].
  assert (Hn : ~ In 47 f) by (apply (C57_no_separator_iff path _ f E'); exact H). split; [exact Hn|].
  assert (Fn : Forall (fun p => ~ In 47 p) qs) by (eapply Forall_impl; [|exact Fq]; intros p (A & B); exact B).
  rewrite Es, pieces_join_app by assumption. rewrite (pieces_one f) by assumption. now rewrite last_last, removelast_last.
Qed.
Print Assumptions C57_folder_extraction_partial.
(** Otherwise separators stay in the file name: "/a/b.png" and "a//b.png". *)
Theorem C57_separator_left_refuted : exists path folder file, extract_folder path = Done (folder, file) /\ In 47 file.
Proof. exists (T"/a/b.png"), [], (T"/a/b.png"). split; [reflexivity|]. now left. Qed.
Print Assumptions C57_separator_left_refuted.
Example C57_double : extract_folder (T"a//b.png") = Done (T"a/", T"/b.png").
Proof. reflexivity. Qed.
Example C57_case : extract_folder (T"models/3ds/base.3ds") = Done (T"models/3ds/", T"base.3ds")
  /\ Forall (fun p => p <> []) (removelast (pieces (T"models/3ds/base.3ds"))).
Proof. split; [reflexivity|]. repeat (apply Forall_cons; [discriminate|]). apply Forall_nil. Qed.

(** ** C20 *)
(** The working folder is absolute: its hierarchy starts with the holder "" (FolderIdentifier.cpp:112). *)
Definition work (ws : list (list N)) : list (list N) := [] :: ws.
Definition short (s : list N) : Prop := nlen s < 4294967296.

Lemma some_inj {A} (x y : A) : Some x = Some y -> x = y.
Proof. intros H. injection H. auto. Qed.
Lemma target_low h bs ps f name : h <> [] -> filter ne (map convert_name h) = bs -> Forall low bs ->
  name <> [] -> wf16 name -> nlen (join 47 bs) + nlen name + 1 < two64 -> pieces name = ps ++ [f] ->
  stays 0 ps ->
  exists r, Forall low r /\ (forall p, file_path (file_set h name) = Some p ->
    p = get_full_path ([] :: map enc (bs ++ r)) ++ convert_name (enc f)).
Proof.
  intros Hh Eb Fb Hne W L E St.
  assert (Fp : Forall part bs) by (eapply Forall_impl; [|exact Fb]; intros p (A & B); exact A).
  pose proof (file_set_ok h bs name ps f Hh Eb Fp Hne W L E) as EF.
  assert (Fps : Forall (fun p => ~ In 47 p /\ wf16 p) ps).
  { assert (F : Forall (fun p => ~ In 47 p /\ wf16 p) (pieces name)) by (apply Forall_and; [apply pieces_noslash|now apply pieces_wf]).
    rewrite E in F. now apply Forall_app in F as (F & _). }
  rewrite map_app, fold_left_app, (fold_low [[]] bs Fb) in EF.
  destruct (fold_stays ps 0 ([[]] ++ map enc bs) [] Fps St ltac:(cbn; lia) ltac:(constructor)) as (r & Er & Fr).
  cbn [map] in Er. rewrite app_nil_r in Er. rewrite Er in EF. exists r. split; [assumption|]. intros p Hp.
  rewrite EF in Hp. unfold file_path in Hp. cbn [f_folder f_name app] in Hp.
  destruct (enc f) as [|c e]; [discriminate|]. apply some_inj in Hp. rewrite <- Hp, map_app. reflexivity.
Qed.

(** Unpacking a scene (.mvr): an entry whose folder pieces never climb above the start lands inside. *)
Theorem C20_mvr_partial : forall ws name path loc,
  Forall plain ws -> short (join 47 ws) -> wf16 name -> short name ->
  stays 0 (removelast (pieces name)) ->
  mvr_target (work ws) name = Some path -> location path = Some loc -> inside ws loc.
Proof.
  intros ws name path loc Fw Lw W L St E Eloc. unfold mvr_target in E. destruct (equal name _); [discriminate|].
  destruct name as [|c0 n0] eqn:En; [discriminate|]. rewrite <- En in *.
  destruct (plain_parts ws Fw) as (P1 & P2 & P3 & P4).
  pose proof (app_removelast_last [] (pieces_ne name)) as Ep.
  destruct (target_low (work ws) ws _ _ name ltac:(discriminate) P1 P3 ltac:(rewrite En; discriminate) W
              ltac:(unfold short, two64 in *; lia) Ep St) as (r & Fr & Hr).
  specialize (Hr path E). rewrite Hr in Eloc.
  destruct (location_path (ws ++ r) (enc (last (pieces name) [])) loc (proj2 (Forall_app _ _ _) (conj P3 Fr)) (enc_noslash _) Eloc) as (_ & ->).
  rewrite map_app, filter_app, (filter_plain ws Fw). rewrite <- app_assoc. eexists. split; [|reflexivity].
  intros K. apply app_eq_nil in K as (_ & K). discriminate K.
Qed.
Print Assumptions C20_mvr_partial.

(** Exactly where an ordinary entry goes. *)
Lemma location_some h f : Forall low h -> plain f ->
  location (get_full_path ([] :: map enc h) ++ convert_name (enc f)) = Some (filter named (map (fun p => convert_name (enc p)) h) ++ [f]).
Proof.
  intros Fh Pf. destruct (location _) as [loc|] eqn:E.
  - destruct (location_path h (enc f) loc Fh (enc_noslash _) E) as (_ & ->). now rewrite (proj1 (conv_enc_plain f Pf)).
  - exfalso. rewrite get_full_path_parts in E. rewrite (proj1 (conv_enc_plain f Pf)) in E.
    cbn [map filter] in E. change (convert_name []) with (@nil N) in E. cbn [ne] in E. rewrite map_map in E.
    assert (Fc : Forall part (map (fun p => convert_name (enc p)) h)).
    { apply Forall_map. eapply Forall_impl; [|exact Fh]. intros p Hp. apply conv_enc_low, Hp. }
    rewrite filter_ne_parts in E by assumption. destruct Pf as (W & H1 & H2 & H3 & H4 & H5 & H6).
    cbn [app location] in E. change (47 =? 47) with true in E. cbv iota zeta in E.
    rewrite pieces_join_app in E by (eapply Forall_impl; [|exact Fc]; intros p (A & B & C); exact C).
    rewrite (pieces_one f) in E by assumption. rewrite last_last in E.
    destruct (str_dec f []); [contradiction|]. destruct (str_dec f dot); [contradiction|]. destruct (str_dec f dotdot); [contradiction|discriminate].
Qed.
Lemma fold_up ws : forall rest h, fold_left add_part (map enc (repeat dotdot (List.length ws) ++ rest)) (h ++ map enc ws)
  = fold_left add_part (map enc rest) h.
Proof.
  induction ws as [|w ws IH] using rev_ind; intros rest h; [cbn; now rewrite app_nil_r|].
  rewrite app_length. cbn [List.length]. rewrite Nat.add_1_r. cbn [repeat app map fold_left]. rewrite add_part_enc.
  destruct (str_dec dotdot dotdot) as [_|K]; [|congruence]. rewrite (map_app enc ws [w]), app_assoc. cbn [map].
  rewrite removelast_last. apply IH.
Qed.
Lemma pieces_entry us f : Forall (fun p => ~ In 47 p) us -> ~ In 47 f -> pieces (join 47 us ++ f) = us ++ [f].
Proof. intros F H. rewrite pieces_join_app by assumption. now rewrite pieces_one. Qed.
Lemma up_dirs_ok n dirs : Forall plain dirs -> Forall part (repeat dotdot n ++ dirs).
Proof.
  intros F. apply Forall_app. split.
  - apply Forall_forall. intros x Hx. apply repeat_spec in Hx. subst x. split; [apply wf16_ascii; cbn; fsolve|]. split; [discriminate|cbn; lia].
  - eapply Forall_impl; [|exact F]. intros p (A & B & C & D & E & _). repeat split; assumption.
Qed.
Lemma climb h ws k dirs f : Forall plain ws -> Forall plain dirs -> plain f ->
  h = work ws -> nlen (join 47 ws) + nlen (repeat 47 k ++ join 47 (repeat dotdot (List.length ws) ++ dirs) ++ f) + 1 < two64 ->
  exists path, file_path (file_set h (repeat 47 k ++ join 47 (repeat dotdot (List.length ws) ++ dirs) ++ f)) = Some path
    /\ location path = Some (dirs ++ [f]).
Proof.
  intros Fw Fd Pf -> L. destruct (plain_parts ws Fw) as (P1 & P2 & P3 & P4). destruct (plain_parts dirs Fd) as (D1 & D2 & D3 & D4).
  pose proof (up_dirs_ok (List.length ws) dirs Fd) as Fu. remember (repeat dotdot (List.length ws) ++ dirs) as us eqn:Eu.
  assert (Fn : Forall (fun p => ~ In 47 p) us) by (eapply Forall_impl; [|exact Fu]; intros p (A & B & C); exact C).
  assert (Fwf : Forall wf16 us) by (eapply Forall_impl; [|exact Fu]; intros p (A & B & C); exact A).
  destruct (conv_enc_plain f Pf) as (Ef & Lf & _). pose proof Pf as (W & H1 & H2 & H3 & H4 & H5 & H6).
  assert (EF : file_set (work ws) (repeat 47 k ++ join 47 us ++ f)
    = mkFile (fold_left add_part (map enc (ws ++ filter ne (repeat [] k ++ us))) [[]]) (enc f)).
  { apply file_set_ok; [discriminate|assumption|assumption| | |assumption|].
    - intros K. apply app_eq_nil in K as (_ & K). apply app_eq_nil in K as (_ & K). contradiction.
    - apply wf16_app; [|apply wf16_app; [now apply wf16_join|assumption]]. apply wf16_ascii. apply Forall_forall.
      intros x Hx. apply repeat_spec in Hx. subst x. lia.
    - rewrite pieces_repeat, pieces_entry by assumption. now rewrite app_assoc. }
  rewrite filter_repeat_nil, filter_ne_parts in EF by assumption.
  rewrite map_app, fold_left_app, (fold_low [[]] ws P3) in EF. rewrite EF, Eu, fold_up, (fold_low [[]] dirs D3).
  cbn [app] in *. unfold file_path. cbn [f_folder f_name].
  assert (Ne : enc f <> []) by (intros K; apply enc_nil in K; contradiction).
  destruct (enc f) as [|c e] eqn:Ee; [congruence|]. rewrite <- Ee. eexists. split; [reflexivity|].
  rewrite Ee. rewrite <- Ee. rewrite (location_some dirs f D3 Pf), (filter_plain dirs Fd). reflexivity.
Qed.
(** With ".." pieces an entry can be written to any place of the file system. *)
Theorem C20_mvr_any_file : forall ws dirs f, ws <> [] -> Forall plain ws -> Forall plain dirs -> plain f ->
  short (join 47 ws) -> short (join 47 (repeat dotdot (List.length ws) ++ dirs) ++ f) ->
  exists name path, mvr_target (work ws) name = Some path /\ location path = Some (dirs ++ [f]).
Proof.
  intros ws dirs f Hw Fw Fd Pf L1 L2.
  destruct (climb (work ws) ws 0 dirs f Fw Fd Pf eq_refl) as (path & E1 & E2).
  { cbn [repeat app]. unfold short, two64 in *. lia. }
  exists (join 47 (repeat dotdot (List.length ws) ++ dirs) ++ f), path. split; [|assumption].
  unfold mvr_target. cbn [repeat app] in E1. destruct ws as [|w ws]; [congruence|].
  replace (equal _ _) with false; [exact E1|]. reflexivity.
Qed.
Print Assumptions C20_mvr_any_file.
Lemma plain_lit (p : list N) : Forall (fun c => c < 55296 /\ c <> 47 /\ c <> 58 /\ c <> 37) p -> p <> [] -> p <> dot -> p <> dotdot -> plain p.
Proof.
  intros F H1 H2 H3. split; [apply wf16_ascii; eapply Forall_impl; [|exact F]; cbn; intros; lia|].
  repeat split; try assumption; intros K; rewrite Forall_forall in F; specialize (F _ K); cbn in F; lia.
Qed.
Ltac plain_tac := apply plain_lit; [cbn; repeat (apply Forall_cons; [lia|]); apply Forall_nil|discriminate|discriminate|discriminate].
Definition home : list (list N) := [T"home"; T"user"; T"scene"].
Lemma home_plain : Forall plain home.
Proof. unfold home. repeat (apply Forall_cons; [plain_tac|]). apply Forall_nil. Qed.
Theorem C20_mvr_refuted : exists ws name path loc, Forall plain ws /\ mvr_target (work ws) name = Some path
  /\ location path = Some loc /\ ~ inside ws loc.
Proof.
  exists home, (T"../../../etc/cron.d/job"), (T"/etc/cron.d/job"), [T"etc"; T"cron.d"; T"job"].
  split; [apply home_plain|]. split; [lazy; reflexivity|]. split; [lazy; reflexivity|].
  intros (rest & _ & E). discriminate E.
Qed.
Print Assumptions C20_mvr_refuted.
Example C20_mvr_case : mvr_target (work home) (T"models/../spot.gdtf") = Some (T"/home/user/scene/spot.gdtf")
  /\ stays 0 (removelast (pieces (T"models/../spot.gdtf"))).
Proof. split; [lazy; reflexivity|]. exact I. Qed.

(** Unpacking a fixture (.gdtf).  Back slashes count as separators; the folders of the entry are
    joined without separators to one folder name. *)
Definition slashes (name : list N) : list N := map (fun c => if c =? 92 then 47 else c) name.
Lemma repl_slashes name : repl name [92] [47] = slashes name.
Proof.
  rewrite repl_single. unfold slashes. induction name as [|c s IH]; [reflexivity|]. cbn [flat_map map].
  rewrite IH. now destruct (c =? 92).
Qed.
Lemma slashes_id name : Forall (fun c => c <> 92) name -> slashes name = name.
Proof.
  intros F. unfold slashes. induction F as [|c s H F IH]; [reflexivity|]. cbn [map]. rewrite IH.
  replace (c =? 92) with false by lia. reflexivity.
Qed.
Lemma slashes_wf name : wf16 name -> wf16 (slashes name).
Proof.
  intros W. rewrite <- repl_slashes. apply repl_wf; [discriminate|fsolve|apply wf16_ascii; fsolve|assumption].
Qed.
Lemma repl_flat qs : Forall (fun q => q <> [] /\ ~ In 47 q) qs -> repl (join 47 qs) [47] [] = concat qs.
Proof.
  intros F. rewrite repl_single. induction F as [|q qs (_ & H) F IH]; [reflexivity|].
  cbn [join flat_map concat]. fold (join 47 qs). rewrite !flat_map_app, IH. f_equal. cbn [flat_map].
  change (47 =? 47) with true. cbv iota. rewrite app_nil_r.
  assert (K : flat_map (fun x => if x =? 47 then [] else [x]) q = q).
  { clear IH F. induction q as [|c q IH]; [reflexivity|]. cbn [flat_map]. cbn [In] in H. replace (c =? 47) with false by lia. cbn [app].
    rewrite IH by auto. reflexivity. }
  now rewrite K, ?app_nil_r.
Qed.
Lemma repl_short s old new : old <> [] -> nlen new <= nlen old -> nlen (repl s old new) <= nlen s.
Proof.
  intros Ho L. generalize (repl_ok s old new Ho). generalize (repl s old new) as r. intros r R.
  induction R as [s H|a m b r Hm Hp R IH]; [lia|]. rewrite !map_id in Hm. subst m. rewrite !nlen_app. lia.
Qed.
Lemma convert_short s : nlen (convert_name s) <= nlen s.
Proof.
  unfold convert_name.
  repeat (eapply N.le_trans; [apply repl_short; [discriminate|vm_compute; discriminate]|]). lia.
Qed.
Lemma flat_map_len (g : N -> list N) k s : (forall x, nlen (g x) <= k) -> nlen (flat_map g s) <= k * nlen s.
Proof.
  intros H. induction s as [|c s IH]; [cbn; lia|]. cbn [flat_map]. rewrite nlen_app, nlen_cons. specialize (H c). lia.
Qed.
Lemma repl3_len s c new : nlen new <= 3 -> nlen (repl s [c] new) <= 3 * nlen s.
Proof.
  intros H. rewrite repl_single. apply flat_map_len. intros x. destruct (x =? c); [assumption|]. vm_compute. discriminate.
Qed.
Lemma enc_len p : nlen (enc p) <= 27 * nlen p.
Proof.
  unfold enc, validate_name.
  pose proof (repl3_len p 58 [47] ltac:(vm_compute; discriminate)) as H1.
  pose proof (repl3_len (repl p [58] [47]) 47 (T"%5C") ltac:(vm_compute; discriminate)) as H2.
  pose proof (repl3_len (repl (repl p [58] [47]) [47] (T"%5C")) 58 (T"%3A") ltac:(vm_compute; discriminate)) as H3.
  lia.
Qed.
Lemma concat_wf qs : Forall wf16 qs -> wf16 (concat qs).
Proof. induction 1; [apply wf16_nil|]. cbn [concat]. now apply wf16_app. Qed.
Lemma concat_noslash qs : Forall (fun q => q <> [] /\ ~ In 47 q) qs -> ~ In 47 (concat qs).
Proof.
  intros F K. apply in_concat in K as (q & H1 & H2). rewrite Forall_forall in F. now apply (F q H1).
Qed.
Lemma concat_len qs : nlen (concat qs) <= nlen (join 47 qs).
Proof.
  induction qs as [|q qs IH]; [vm_compute; discriminate|]. cbn [concat join flat_map]. fold (join 47 qs).
  rewrite !nlen_app. lia.
Qed.
(** The entry name falls into the folders [qs] and the rest [file]: up to the last separator, or up
    to the first empty piece. *)
Definition splits (name : list N) (qs : list (list N)) (file : list N) : Prop :=
  slashes name = join 47 qs ++ file /\ Forall (fun q => q <> [] /\ ~ In 47 q) qs
  /\ (In 47 file -> exists r, file = 47 :: r).
Lemma splits_fun : forall qs qs' f f', join 47 qs ++ f = join 47 qs' ++ f' ->
  Forall (fun q => q <> [] /\ ~ In 47 q) qs -> Forall (fun q => q <> [] /\ ~ In 47 q) qs' ->
  (In 47 f -> exists r, f = 47 :: r) -> (In 47 f' -> exists r, f' = 47 :: r) -> qs = qs' /\ f = f'.
Proof.
  assert (cut : forall (q r : list N), ~ In 47 q -> forall q' r', ~ In 47 q' -> q ++ 47 :: r = q' ++ 47 :: r' -> q = q' /\ r = r').
  { induction q as [|c q IH]; intros r H [|c' q'] r' H' E; cbn [app] in E.
    - injection E as E. auto.
    - exfalso. injection E as E1 E2. apply H'. now left.
    - exfalso. injection E as E1 E2. apply H. now left.
    - injection E as E1 E2. destruct (IH r ltac:(intros K; apply H; now right) q' r' ltac:(intros K; apply H'; now right) E2). subst. auto. }
  assert (no : forall (q r f : list N), q <> [] -> ~ In 47 q -> (In 47 f -> exists r, f = 47 :: r) -> f <> q ++ 47 :: r).
  { intros q r f H1 H2 H3 ->. destruct H3 as (r' & E); [apply in_or_app; right; now left|].
    destruct q as [|c q]; [congruence|]. injection E as -> _. apply H2. now left. }
  induction qs as [|q qs IH]; intros [|q' qs'] f f' E F F' H H'; cbn [join flat_map] in E; fold (join 47) in E.
  - auto.
  - exfalso. inversion_clear F' as [|? ? (A & B) C]. apply (no q' (join 47 qs' ++ f') f A B H).
    cbn [app] in E. rewrite E. now rewrite <- !app_assoc.
  - exfalso. inversion_clear F as [|? ? (A & B) C]. apply (no q (join 47 qs ++ f) f' A B H').
    cbn [app] in E. rewrite <- E. now rewrite <- !app_assoc.
  - inversion_clear F as [|? ? (A & B) C]. inversion_clear F' as [|? ? (A' & B') C'].
    rewrite <- !app_assoc in E. cbn [app] in E. apply (cut q _ B q' _ B') in E as (-> & E).
    destruct (IH qs' f f' E C C' H H') as (-> & ->). auto.
Qed.
Lemma gdtf_split_ok name qs file : splits name qs file -> gdtf_split name = (47 :: concat qs, file).
Proof.
  intros (E & F & H). unfold gdtf_split, extract_folder. rewrite repl_slashes.
  destruct (extract_ok _ (slashes name) (S (List.length (slashes name))) [] eq_refl ltac:(lia)) as (qs' & f' & E' & Es & Fq & Hf).
  rewrite E'. cbn [app]. rewrite E in Es. destruct (splits_fun _ _ _ _ Es F Fq H Hf) as (-> & ->).
  now rewrite repl_flat.
Qed.
Lemma splits_wf name qs file : wf16 name -> splits name qs file -> Forall wf16 qs /\ wf16 file.
Proof.
  intros W (E & F & H). apply slashes_wf in W. rewrite E in W. clear E H. revert W.
  induction F as [|q qs (_ & Hq) F IH]; intros W; [auto|].
  cbn [join flat_map] in W. fold (join 47 qs) in W. rewrite <- !app_assoc in W. cbn [app] in W.
  apply wf16_cut in W as (W1 & W2); [|unfold surrogate; lia]. destruct (IH W2). auto.
Qed.
Lemma gdtf_folder_ok ws name qs file : Forall plain ws -> wf16 name -> splits name qs file ->
  gdtf_folder (work ws) name = fold_left add_part (map enc (filter ne [concat qs])) (work ws).
Proof.
  intros Fw W Sp. unfold gdtf_folder. rewrite (gdtf_split_ok _ _ _ Sp). cbn [fst].
  destruct (splits_wf _ _ _ W Sp) as (Wq & _). destruct Sp as (_ & Fq & _).
  destruct (plain_parts ws Fw) as (P1 & P2 & P3 & P4).
  unfold folder_set, work. rewrite get_full_path_parts, P1. cbn [app].
  assert (Fn : Forall (fun p => ~ In 47 p) ws) by (eapply Forall_impl; [|exact P2]; intros p (A & B & C); exact C).
  assert (Fwf : Forall wf16 ws) by (eapply Forall_impl; [|exact P2]; intros p (A & B & C); exact A).
  rewrite set_full_path_ok by (apply wf16_app; [now apply wf16_join|apply wf16_cons47, concat_wf, Wq]).
  rewrite pieces_join_app by assumption. cbn [pieces]. change (47 =? 47) with true. cbv iota.
  rewrite (pieces_one (concat qs)) by now apply concat_noslash.
  rewrite filter_app, (filter_ne_parts ws) by assumption. rewrite map_app, fold_left_app, (fold_low [[]] ws P3).
  rewrite P4. reflexivity.
Qed.
(** The entry lands inside if the joined folder name is not ".." and the rest does not climb. *)
Theorem C20_gdtf_partial : forall ws name qs file path loc,
  Forall plain ws -> short (join 47 ws) -> wf16 name -> short name ->
  splits name qs file -> concat qs <> dotdot -> stays 0 (removelast (pieces file)) ->
  gdtf_target (work ws) name = Some path -> location path = Some loc -> inside ws loc.
Proof.
  intros ws name qs file path loc Fw Lw W L Sp Hd St E Eloc. unfold gdtf_target in E. destruct (equal name _); [discriminate|].
  rewrite (gdtf_folder_ok ws name qs file) in E by assumption. rewrite (gdtf_split_ok _ _ _ Sp) in E. cbn [snd] in E.
  destruct (splits_wf _ _ _ W Sp) as (Wq & Wf). pose proof Sp as (Es & Fq & _).
  destruct (plain_parts ws Fw) as (P1 & P2 & P3 & P4).
  assert (Lj : nlen (join 47 qs ++ file) = nlen name) by (rewrite <- Es; unfold slashes, nlen; now rewrite map_length).
  rewrite nlen_app in Lj. pose proof (concat_len qs) as Lc.
  destruct file as [|c0 f0] eqn:Ef; [discriminate|]. rewrite <- Ef in *.
  remember (if ne (concat qs) then [concat qs] else []) as fl eqn:Efl.
  assert (Ff : Forall low fl).
  { subst fl. destruct (concat qs) as [|c cs] eqn:Ec; [constructor|]. cbn [ne]. rewrite <- Ec in *. constructor; [|constructor].
    split; [|assumption]. split; [now apply concat_wf|]. split; [rewrite Ec; discriminate|now apply concat_noslash]. }
  assert (Eh : fold_left add_part (map enc (filter ne [concat qs])) (work ws) = [] :: map enc (ws ++ fl)).
  { cbn [filter]. rewrite <- Efl, fold_low by assumption. unfold work. cbn [app]. now rewrite map_app, P4. }
  rewrite Eh in E.
  remember (ws ++ map (fun p => convert_name (enc p)) fl) as bs eqn:Eb.
  assert (Hb : filter ne (map convert_name ([] :: map enc (ws ++ fl))) = bs).
  { change (filter ne (map convert_name ([] :: map enc (ws ++ fl)))) with (filter ne (map convert_name (map enc (ws ++ fl)))).
    rewrite map_app, P4, map_app, filter_app. cbn [map filter] in P1. change (convert_name []) with (@nil N) in P1. cbn [ne] in P1.
    rewrite P1, map_map, filter_ne_parts; [now subst bs|]. apply Forall_map. eapply Forall_impl; [|exact Ff]. intros p Hp. apply conv_enc_low, Hp. }
  assert (Fb : Forall low bs).
  { subst bs. apply Forall_app. split; [assumption|]. apply Forall_map. eapply Forall_impl; [|exact Ff]. intros p Hp.
    destruct (conv_enc_low p Hp). split; assumption. }
  assert (Lb : nlen (join 47 bs) <= nlen (join 47 ws) + 27 * nlen name + 1).
  { subst bs fl. unfold join. rewrite flat_map_app, nlen_app. destruct (ne (concat qs)); cbn [map flat_map]; [|rewrite nlen_nil; lia].
    rewrite !nlen_app, nlen_cons, nlen_nil. pose proof (convert_short (enc (concat qs))). pose proof (enc_len (concat qs)). lia. }
  pose proof (app_removelast_last [] (pieces_ne file)) as Ep.
  destruct (target_low ([] :: map enc (ws ++ fl)) bs _ _ file ltac:(discriminate) Hb Fb ltac:(rewrite Ef; discriminate) Wf
              ltac:(unfold short, two64 in *; lia) Ep St) as (r & Fr & Hr).
  specialize (Hr path E). rewrite Hr in Eloc.
  destruct (location_path (bs ++ r) (enc (last (pieces file) [])) loc (proj2 (Forall_app _ _ _) (conj Fb Fr)) (enc_noslash _) Eloc) as (_ & ->).
  subst bs. rewrite map_app, filter_app, map_app, filter_app, filter_plain by assumption. rewrite <- !app_assoc. eexists. split; [|reflexivity].
  intros K. apply app_eq_nil in K as (_ & K). apply app_eq_nil in K as (_ & K). discriminate.
Qed.
Print Assumptions C20_gdtf_partial.
(** Entry names without leading and double separators leave the folder only through a folder name
    joined to ".."; they never leave it by more than one level (see the two witnesses below). *)
Corollary C20_gdtf_ordinary_partial : forall ws name path loc,
  Forall plain ws -> short (join 47 ws) -> wf16 name -> short name ->
  Forall (fun p => p <> []) (removelast (pieces (slashes name))) ->
  concat (removelast (pieces (slashes name))) <> dotdot ->
  gdtf_target (work ws) name = Some path -> location path = Some loc -> inside ws loc.
Proof.
  intros ws name path loc Fw Lw W L Hn Hd. pose proof (app_removelast_last [] (pieces_ne (slashes name))) as Ep.
  destruct (pieces_last _ _ _ Ep) as (_ & Hf & Hq).
  apply (C20_gdtf_partial ws name (removelast (pieces (slashes name))) (last (pieces (slashes name)) [])); try assumption.
  - split; [|split; [now apply Forall_and|contradiction]].
    pose proof (pieces_join (slashes name)) as J. rewrite Ep in J at 1. unfold join in J. rewrite flat_map_app in J. cbn [flat_map] in J.
    rewrite app_nil_r, app_assoc in J. apply app_inj_tail in J as (J & _). now symmetry.
  - rewrite pieces_one by assumption. exact I.
Qed.
Print Assumptions C20_gdtf_ordinary_partial.
(** A name starting with a separator can be written to any place of the file system. *)
Theorem C20_gdtf_any_file : forall ws dirs f, ws <> [] -> Forall plain ws -> Forall plain dirs -> plain f ->
  Forall (fun p => ~ In 92 p) dirs -> ~ In 92 f ->
  short (join 47 ws) -> short (join 47 (repeat dotdot (List.length ws) ++ dirs) ++ f) ->
  exists name path, gdtf_target (work ws) name = Some path /\ location path = Some (dirs ++ [f]).
Proof.
  intros ws dirs f Hw Fw Fd Pf Nd Nf L1 L2. destruct (plain_parts ws Fw) as (P1 & P2 & P3 & P4).
  set (name := repeat 47 1 ++ join 47 (repeat dotdot (List.length ws) ++ dirs) ++ f).
  destruct (climb (work ws) ws 1 dirs f Fw Fd Pf eq_refl) as (path & E1 & E2).
  { cbn [repeat app]. rewrite nlen_cons. unfold short, two64 in *. lia. }
  exists name, path. split; [|assumption]. fold name in E1. unfold gdtf_target.
  replace (equal name _) with false by reflexivity.
  assert (Es : slashes name = name).
  { assert (F : Forall (fun c => c <> 92) name).
    { unfold name. cbn [repeat app]. constructor; [lia|]. apply Forall_app. split; [|now apply not_in_forall].
      assert (Fj : Forall (fun p => ~ In 92 p) (repeat dotdot (List.length ws) ++ dirs)).
      { apply Forall_app. split; [|assumption]. apply Forall_forall. intros x Hx. apply repeat_spec in Hx. subst x. cbn; lia. }
      clear -Fj. induction Fj as [|p ps H F IH]; [constructor|]. cbn [join flat_map]. apply Forall_app. split; [|exact IH].
      apply Forall_app. split; [now apply not_in_forall|repeat constructor; lia]. }
    exact (slashes_id name F). }
  assert (Sp : splits name [] name).
  { split; [exact Es|]. split; [constructor|]. intros _. unfold name. cbn [repeat app]. eauto. }
  pose proof (up_dirs_ok (List.length ws) dirs Fd) as Fu.
  rewrite (gdtf_folder_ok ws name [] name); [|assumption| |assumption].
  2:{ unfold name. cbn [repeat app]. apply wf16_cons47. apply wf16_app; [|apply Pf]. apply wf16_join.
      eapply Forall_impl; [|exact Fu]; intros p (A & B & C); exact A. }
  rewrite (gdtf_split_ok _ _ _ Sp). cbn [concat filter ne map fold_left snd]. exact E1.
Qed.
Print Assumptions C20_gdtf_any_file.
(** Three ways out: "..", "." twice, and a double separator. *)
Theorem C20_gdtf_refuted : exists ws name path loc, Forall plain ws /\ gdtf_target (work ws) name = Some path
  /\ location path = Some loc /\ ~ inside ws loc.
Proof.
  exists home, (T"../x.png"), (T"/home/user/x.png"), [T"home"; T"user"; T"x.png"].
  split; [apply home_plain|]. split; [lazy; reflexivity|]. split; [lazy; reflexivity|].
  intros (rest & _ & E). discriminate E.
Qed.
Print Assumptions C20_gdtf_refuted.
Example C20_gdtf_dots : gdtf_target (work home) (T"././x.png") = Some (T"/home/user/x.png").
Proof. lazy. reflexivity. Qed.
Example C20_gdtf_double : gdtf_target (work home) (T"wheels\\..\..\..\etc\x") = Some (T"/home/etc/x").
Proof. lazy. reflexivity. Qed.
Example C20_gdtf_case : gdtf_target (work home) (T"models/3ds/base.3ds") = Some (T"/home/user/scene/models3ds/base.3ds")
  /\ splits (T"models/3ds/base.3ds") [T"models"; T"3ds"] (T"base.3ds").
Proof.
  split; [lazy; reflexivity|]. split; [reflexivity|]. split.
  - repeat (apply Forall_cons; [split; [discriminate|cbn; lia]|]). apply Forall_nil.
  - intros K. exfalso. cbn in K. lia.
Qed.
