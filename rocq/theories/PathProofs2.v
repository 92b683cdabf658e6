(** Lemmas for PathProps: what the identifiers hold. *)
From Coq Require Import String List NArith ZArith Lia Bool.
From Coq Require Import ZifyN ZifyNat ZifyBool.
From Verif Require Import Bytes BytesProofs Txt UtfSpec StringModel StringSpec StringProofs ConvProps PathModel PathSpec PathProofs.
Import ListNotations.
Open Scope N_scope.

Definition ne (p : list N) : bool := match p with [] => false | _ => true end.
Lemma ne_true p : p <> [] -> ne p = true.
Proof. destruct p; [congruence|reflexivity]. Qed.

Lemma parts_loop_ok : forall ps pre fuel acc s,
  s = pre ++ join 47 ps -> Forall (fun p => ~ In 47 p /\ wf16 p) ps -> (List.length ps < fuel)%nat ->
  parts_loop fuel false s (nlen pre) acc = Done (acc ++ map enc (filter ne ps)).
Proof.
  induction ps as [|p ps IH]; intros pre fuel acc s Es F L; destruct fuel as [|fuel]; cbn [List.length] in L; try lia;
    cbn [parts_loop].
  - cbn [join flat_map] in Es. rewrite app_nil_r in Es. subst s.
    pose proof (find_ch_spec pre 47 (nlen pre)) as S. destruct (tx_find_ch pre 47 (nlen pre) false) as [k|].
    + exfalso. destruct S as (S1 & S2 & _). apply at_pos_lt in S2. lia.
    + cbn [filter map]. now rewrite app_nil_r.
  - inversion_clear F as [|? ? (Hn & Hw) F'].
    cbn [join flat_map] in Es. fold (join 47 ps) in Es. rewrite <- app_assoc in Es. cbn [app] in Es.
    assert (EF : tx_find_ch s 47 (nlen pre) false = Some (nlen pre + nlen p)).
    { rewrite Es. apply find_ch_at; [assumption|lia|lia]. }
    rewrite EF. replace (nlen pre + nlen p - nlen pre) with (nlen p) by lia.
    replace (nlen pre + nlen p + 1) with (nlen (pre ++ p ++ [47])) by (rewrite !nlen_app, nlen_cons, nlen_nil; lia).
    rewrite (IH (pre ++ p ++ [47]) fuel); [|rewrite Es, <- !app_assoc; reflexivity|assumption|lia].
    destruct p as [|c p].
    + change (nlen (@nil N)) with 0. cbn [filter ne]. replace (mid s (nlen pre) 0) with (@nil N); [reflexivity|].
      unfold mid. destruct (_ <=? _); reflexivity.
    + rewrite Es. rewrite (mid_piece pre (c :: p)) by (discriminate || now apply wf16_trim).
      cbn [filter ne map]. now rewrite <- app_assoc.
Qed.

Lemma find_slash0 t : tx_find_ch (47 :: t) 47 0 false = Some 0.
Proof. reflexivity. Qed.
Lemma is_win_slash t : is_win_path (47 :: t) = false.
Proof.
  unfold is_win_path. rewrite find_slash0. pose proof (find_ch_spec (47 :: t) 92 0) as S.
  destruct (tx_find_ch _ 92 _ _) as [k|]; [|reflexivity]. destruct S as (_ & S & _).
  assert (k <> 0) by (intros ->; discriminate S). replace (0 <? k) with true by lia. reflexivity.
Qed.
Lemma length_pieces_le s : (List.length (pieces s) <= S (List.length s))%nat.
Proof.
  induction s as [|c s IH]; [cbn; lia|]. cbn [pieces]. destruct (c =? 47); [cbn [List.length]; lia|].
  destruct (pieces s); cbn [List.length] in *; lia.
Qed.

(** The hierarchy that [SetFullPath] builds for an absolute path. *)
Lemma set_full_path_ok t : wf16 t ->
  set_full_path (47 :: t) = fold_left add_part (map enc (filter ne (pieces t))) [[]].
Proof.
  intros W. unfold set_full_path. rewrite is_win_slash. unfold cut_start. cbn [nth].
  change (47 mod 256 =? 47) with true. cbn [orb app nth negb andb].
  change (47 =? 47) with true. cbn [andb].
  change 0 with (nlen (@nil N)) at 1. rewrite (parts_loop_ok ([] :: pieces t) [] _ [] (47 :: t ++ [47])).
  - reflexivity.
  - cbn [join flat_map app]. fold (join 47 (pieces t)). now rewrite pieces_join.
  - constructor; [split; [auto|apply wf16_nil]|]. apply Forall_and; [apply pieces_noslash|now apply pieces_wf].
  - pose proof (length_pieces_le t). cbn [List.length]. rewrite app_length. cbn [List.length]. lia.
Qed.

(** Splitting off the last piece. *)
Lemma pieces_last t ps f : pieces t = ps ++ [f] ->
  47 :: t = (match ps with [] => [] | _ => 47 :: removelast (join 47 ps) end) ++ 47 :: f
  /\ ~ In 47 f /\ Forall (fun p => ~ In 47 p) ps.
Proof.
  intros E. pose proof (pieces_join t) as J. rewrite E in J. unfold join in J. rewrite flat_map_app in J.
  cbn [flat_map] in J. rewrite app_nil_r, app_assoc in J. apply app_inj_tail in J as (J & _). fold (join 47 ps) in J.
  pose proof (pieces_noslash t) as F. rewrite E in F. apply Forall_app in F as (F1 & F2). inversion_clear F2 as [|? ? H _].
  split; [|auto]. subst t. destruct ps as [|p ps]; [reflexivity|].
  assert (K : exists r, join 47 (p :: ps) = r ++ [47]).
  { destruct (exists_last (l := p :: ps) ltac:(discriminate)) as (l & x & ->). exists (join 47 l ++ x).
    unfold join. rewrite flat_map_app. cbn [flat_map]. now rewrite app_nil_r, app_assoc. }
  destruct K as (r & ->). rewrite removelast_last. cbn [app]. now rewrite <- app_assoc.
Qed.
Lemma rfind_last d f : ~ In 47 f -> nlen (d ++ 47 :: f) < two64 ->
  tx_rfind_ch (d ++ 47 :: f) 47 npos false = Some (nlen d).
Proof.
  intros Hn L. unfold tx_rfind_ch. pose proof (rfind_if_spec (N.eqb 47) (d ++ 47 :: f) npos) as S.
  rewrite nlen_app, nlen_cons in L.
  assert (A : at_pos (d ++ 47 :: f) (nlen d) = Some 47).
  { rewrite <- (N.add_0_r (nlen d)), at_pos_app2. reflexivity. }
  destruct (ustr_rfind_if _ _ _) as [k|].
  - destruct S as (S1 & (c & S2 & S3) & S4). f_equal. apply N.eqb_eq in S3. subst c.
    destruct (N.lt_trichotomy k (nlen d)) as [K|[K|K]]; [|assumption|].
    + specialize (S4 (nlen d) 47 ltac:(unfold npos, two64 in *; lia) K A). discriminate.
    + exfalso. replace k with (nlen d + (1 + (k - nlen d - 1))) in S2 by lia. rewrite at_pos_app2 in S2.
      change (47 :: f) with ([47] ++ f) in S2. change 1 with (nlen [47]) in S2 at 1. rewrite at_pos_app2 in S2.
      apply at_pos_in in S2. contradiction.
  - exfalso. specialize (S (nlen d) 47 ltac:(unfold npos, two64 in *; lia) A). discriminate.
Qed.
Lemma substr_all s pos : pos <= nlen s -> nlen s < two64 -> substr s pos npos = skipn (N.to_nat pos) s.
Proof.
  intros H L. unfold substr. apply firstn_all2. rewrite skipn_length. unfold nlen, npos, two64 in *. lia.
Qed.
Lemma wf16_tail47 t : wf16 (47 :: t) -> wf16 t.
Proof. intros W. exact (proj2 (wf16_cut 47 ltac:(unfold surrogate; lia) [] t W)). Qed.
Lemma wf16_cons47 t : wf16 t -> wf16 (47 :: t).
Proof. intros W. apply (wf16_app [47]); [apply wf16_ascii; fsolve|assumption]. Qed.

Lemma join_ne_pieces p ps : Forall (fun p => ~ In 47 p) (p :: ps) ->
  pieces (removelast (join 47 (p :: ps))) = p :: ps.
Proof.
  intros F. destruct (exists_last (l := p :: ps) ltac:(discriminate)) as (l & x & E). rewrite E in *.
  unfold join. rewrite flat_map_app. cbn [flat_map]. rewrite app_nil_r, app_assoc, removelast_last. fold (join 47 l).
  apply Forall_app in F as (F1 & F2). inversion_clear F2 as [|? ? H _]. rewrite pieces_join_app by assumption.
  now rewrite pieces_one.
Qed.

(** The identifier that [SetFileFullPath] builds for an absolute path. *)
Lemma set_file_ok t ps f : wf16 t -> nlen t + 1 < two64 -> pieces t = ps ++ [f] ->
  set_file_full_path (47 :: t) = mkFile (fold_left add_part (map enc (filter ne ps)) [[]]) (enc f).
Proof.
  intros W L E. destruct (pieces_last t ps f E) as (Et & Hf & Fp).
  pose proof (pieces_wf t W) as Fw. rewrite E in Fw. apply Forall_app in Fw as (Fw1 & Fw2).
  inversion_clear Fw2 as [|? ? Wf _].
  unfold set_file_full_path. rewrite is_win_slash.
  assert (Lt : nlen (47 :: t) < two64) by (rewrite nlen_cons; lia).
  remember (match ps with [] => [] | _ => 47 :: removelast (join 47 ps) end) as d eqn:Ed.
  rewrite Et in *. rewrite (rfind_last d f Hf Lt).
  assert (Wd : wf16 d).
  { pose proof (wf16_cons47 t W) as Wt. rewrite Et in Wt. exact (proj1 (wf16_cut 47 ltac:(unfold surrogate; lia) d f Wt)). }
  replace (left (d ++ 47 :: f) (nlen d)) with d.
  2:{ unfold left, substr. rewrite skipn_O, firstn_len_app. now rewrite wf16_trim_right. }
  replace (mid (d ++ 47 :: f) (nlen d + 1) npos) with f.
  2:{ unfold mid. rewrite nlen_app, nlen_cons in *. destruct (_ <=? _) eqn:K.
      - apply nlen_0. lia.
      - rewrite substr_all by (rewrite ?nlen_app, ?nlen_cons; lia).
        replace (N.to_nat (nlen d + 1)) with (N.to_nat (nlen (d ++ [47]))) by (rewrite nlen_app, nlen_cons, nlen_nil; lia).
        change (47 :: f) with ([47] ++ f). rewrite app_assoc, skipn_len_app. now rewrite wf16_trim. }
  cbv zeta. fold (enc f). f_equal.
  destruct ps as [|p ps]; subst d.
  - rewrite (set_full_path_ok []) by apply wf16_nil. reflexivity.
  - rewrite set_full_path_ok by now apply wf16_tail47. now rewrite join_ne_pieces.
Qed.

Lemma strip_ok s : wf16 s -> nlen s < two64 -> forall fuel, (List.length s <= fuel)%nat ->
  exists k, wf16 (strip_slashes fuel s) /\ s = repeat 47 k ++ strip_slashes fuel s
    /\ match strip_slashes fuel s with c :: _ => c <> 47 | [] => True end.
Proof.
  remember (List.length s) as n eqn:En. revert s En. induction n as [n IH] using lt_wf_ind.
  intros s En W L fuel Hf. destruct s as [|c s].
  { exists O. destruct fuel; cbn; auto. }
  destruct fuel as [|fuel]; [cbn in En; lia|]. cbn [strip_slashes]. destruct (c =? 47) eqn:E.
  - assert (c = 47) by lia. subst c. pose proof (wf16_tail47 s W) as Ws.
    replace (mid (47 :: s) 1 npos) with s.
    2:{ unfold mid. rewrite nlen_cons in *. destruct (_ <=? _) eqn:K.
        - apply nlen_0. lia.
        - rewrite substr_all by (rewrite ?nlen_cons; lia). cbn [skipn]. now rewrite wf16_trim. }
    cbn [List.length] in En. rewrite nlen_cons in L.
    destruct (IH (List.length s) ltac:(lia) s eq_refl Ws ltac:(lia) fuel ltac:(lia)) as (k & H1 & H2 & H3).
    exists (S k). split; [assumption|]. split; [|assumption]. cbn [repeat app]. f_equal. exact H2.
  - exists O. split; [assumption|]. split; [reflexivity|]. lia.
Qed.
Lemma pieces_repeat k s : pieces (repeat 47 k ++ s) = repeat [] k ++ pieces s.
Proof. induction k as [|k IH]; [reflexivity|]. cbn [repeat app pieces]. change (47 =? 47) with true. cbn. now rewrite IH. Qed.
Lemma filter_repeat_nil k ps : filter ne (repeat [] k ++ ps) = filter ne ps.
Proof. induction k as [|k IH]; [reflexivity|]. exact IH. Qed.

(** A part that a path can hold. *)
Definition part (p : list N) : Prop := wf16 p /\ p <> [] /\ ~ In 47 p.
Lemma wf16_join ws : Forall wf16 ws -> wf16 (join 47 ws).
Proof.
  induction 1 as [|w ws H F IH]; [apply wf16_nil|]. cbn [join flat_map]. apply wf16_app; [|assumption].
  apply wf16_app; [assumption|]. apply wf16_ascii. fsolve.
Qed.
Lemma get_full_path_parts h : get_full_path h = 47 :: join 47 (filter ne (map convert_name h)).
Proof.
  unfold get_full_path. f_equal. induction h as [|p h IH]; [reflexivity|]. cbn [flat_map map filter].
  rewrite IH. destruct (convert_name p) as [|c q]; reflexivity.
Qed.
Lemma filter_ne_parts bs : Forall part bs -> filter ne bs = bs.
Proof.
  induction 1 as [|b bs (_ & H & _) F IH]; [reflexivity|]. cbn [filter]. rewrite IH, ne_true by assumption. reflexivity.
Qed.

(** The file identifier for an entry name below the folder with the parts [bs]. *)
Lemma file_set_ok h bs name ps f : h <> [] -> filter ne (map convert_name h) = bs -> Forall part bs ->
  name <> [] -> wf16 name -> nlen (join 47 bs) + nlen name + 1 < two64 -> pieces name = ps ++ [f] ->
  file_set h name = mkFile (fold_left add_part (map enc (bs ++ filter ne ps)) [[]]) (enc f).
Proof.
  intros Hh Eb Fb Hne W L E. unfold file_set. destruct name as [|c0 name0] eqn:En; [congruence|]. rewrite <- En in *.
  destruct h as [|h0 h1]; [congruence|]. clear Hh.
  destruct (strip_ok name W ltac:(lia) (List.length name) ltac:(lia)) as (k & Ws & Es & _).
  remember (strip_slashes (List.length name) name) as r eqn:Er. clear Er.
  rewrite get_full_path_parts, Eb. cbn [app].
  assert (Fn : Forall (fun p => ~ In 47 p) bs) by (eapply Forall_impl; [|exact Fb]; intros p (A & B & C); exact C).
  assert (Fw : Forall wf16 bs) by (eapply Forall_impl; [|exact Fb]; intros p (A & B & C); exact A).
  pose proof (pieces_ne r) as Hr. destruct (exists_last Hr) as (qs & g & Eq).
  assert (Hq : ps = repeat [] k ++ qs /\ f = g).
  { rewrite Es, pieces_repeat, Eq, app_assoc in E. apply app_inj_tail in E as (E1 & E2). auto. }
  destruct Hq as (-> & ->).
  assert (Lr : nlen r <= nlen name) by (rewrite Es, nlen_app; lia).
  rewrite (set_file_ok (join 47 bs ++ r) (bs ++ qs) g).
  - rewrite filter_app, filter_ne_parts by assumption. now rewrite filter_repeat_nil.
  - apply wf16_app; [now apply wf16_join|assumption].
  - rewrite nlen_app. lia.
  - rewrite pieces_join_app, Eq, app_assoc by assumption. reflexivity.
Qed.

(** ** Walking *)
Lemma txeq_dotdot p : txeq p dotdot = true <-> p = dotdot.
Proof.
  rewrite txeq_iff. split; [|now intros ->]. intros E. change (make_upper dotdot) with [46; 46] in E. unfold make_upper in E.
  destruct p as [|a [|b [|]]]; try discriminate. cbn [map] in E. injection E as E1 E2.
  unfold to_upper in *. assert (a = 46) by (destruct (_ && _) eqn:K in E1; lia).
  assert (b = 46) by (destruct (_ && _) eqn:K in E2; lia). now subst.
Qed.
Lemma add_part_enc h p : add_part h (enc p) = if str_dec p dotdot then removelast h else h ++ [enc p].
Proof.
  unfold add_part. destruct (str_dec p dotdot) as [->|H].
  - reflexivity.
  - replace (txeq (enc p) (T"..")) with false; [reflexivity|]. symmetry. apply not_true_is_false. intros K.
    apply txeq_dotdot in K. apply enc_dotdot in K. contradiction.
Qed.

Definition low (p : list N) : Prop := part p /\ p <> dotdot.
Lemma fold_low h bs : Forall low bs -> fold_left add_part (map enc bs) h = h ++ map enc bs.
Proof.
  intros F. revert h. induction F as [|b bs (_ & H) F IH]; intros h; [now rewrite app_nil_r|].
  cbn [map fold_left]. rewrite add_part_enc. destruct (str_dec b dotdot); [contradiction|].
  rewrite IH, <- app_assoc. reflexivity.
Qed.

(** As long as the path stays below, only parts below the start are touched. *)
Lemma fold_stays : forall ps d base r, Forall (fun p => ~ In 47 p /\ wf16 p) ps -> stays d ps ->
  (d <= List.length r)%nat -> Forall low r ->
  exists r', fold_left add_part (map enc (filter ne ps)) (base ++ map enc r) = base ++ map enc r' /\ Forall low r'.
Proof.
  induction ps as [|p ps IH]; intros d base r F St0 L Fr; [exists r; auto|].
  inversion_clear F as [|? ? (Hn & Hw) F']. cbn [stays] in St0.
  destruct (str_dec p []) as [->|H0]; [apply (IH d); assumption|].
  cbn [filter]. rewrite ne_true by assumption. cbn [map fold_left]. rewrite add_part_enc.
  assert (Push : forall d', p <> dotdot -> stays d' ps -> (d' <= List.length (r ++ [p]))%nat ->
    exists r', fold_left add_part (map enc (filter ne ps)) ((base ++ map enc r) ++ [enc p]) = base ++ map enc r' /\ Forall low r').
  { intros d' Hd St Ld. replace ((base ++ map enc r) ++ [enc p]) with (base ++ map enc (r ++ [p])) by (rewrite map_app, app_assoc; reflexivity).
    apply (IH d'); [assumption..|]. apply Forall_app. split; [assumption|]. constructor; [|constructor]. repeat split; assumption. }
  destruct (str_dec p dot) as [H1|H1].
  - destruct (str_dec p dotdot) as [H2|H2]; [subst p; discriminate H2|].
    apply (Push d); [assumption..|]. rewrite app_length. lia.
  - destruct (str_dec p dotdot) as [H2|H2].
    + destruct d as [|d]; [contradiction|]. assert (Hr : r <> []) by (intros K; rewrite K in L; cbn in L; lia).
      destruct (exists_last Hr) as (r0 & y & ->). clear Hr.
      rewrite map_app, app_assoc. cbn [map]. rewrite removelast_last. rewrite app_length in L. cbn [List.length] in L.
      apply Forall_app in Fr as (Fr & _). apply (IH d); [assumption|assumption|lia|assumption].
    + apply (Push (S d)); [assumption..|]. rewrite app_length. cbn [List.length]. lia.
Qed.

(** Where the path of an identifier leads. *)
Definition quiet (p : list N) : Prop := p <> dotdot.
Lemma walk_low : forall ps at_, Forall quiet ps ->
  walk at_ ps = at_ ++ filter (fun p => if str_dec p [] then false else if str_dec p dot then false else true) ps.
Proof.
  induction ps as [|p ps IH]; intros at_ F; [now rewrite app_nil_r|]. inversion_clear F as [|? ? H F'].
  cbn [walk filter]. destruct (str_dec p []); [now apply IH|]. destruct (str_dec p dot); [now apply IH|].
  destruct (str_dec p dotdot); [contradiction|]. rewrite IH by assumption. now rewrite <- app_assoc.
Qed.
Definition named (p : list N) : bool := if str_dec p [] then false else if str_dec p dot then false else true.
Lemma conv_enc_low p : low p -> part (convert_name (enc p)) /\ convert_name (enc p) <> dotdot.
Proof.
  intros ((W & H1 & H2) & H3). repeat split.
  - apply convert_wf, enc_wf, W.
  - intros E. apply convert_nil, enc_nil in E. contradiction.
  - apply convert_noslash, enc_noslash.
  - intros E. apply convert_inv in E; [|apply tame_dots]. apply enc_dotdot in E. contradiction.
Qed.
Lemma conv_enc_plain p : plain p -> convert_name (enc p) = p /\ low p /\ named p = true.
Proof.
  intros P. destruct (plain_enc p P) as (E1 & E2). destruct P as (W & H1 & H2 & H3 & H4 & H5 & H6).
  split; [now rewrite E1, E2|]. split; [repeat split; assumption|]. unfold named.
  destruct (str_dec p []); [contradiction|]. destruct (str_dec p dot); [contradiction|reflexivity].
Qed.
Lemma location_path h f loc : Forall low h -> ~ In 47 f ->
  location (get_full_path ([] :: map enc h) ++ convert_name f) = Some loc ->
  f <> [] /\ loc = filter named (map (fun p => convert_name (enc p)) h) ++ [convert_name f].
Proof.
  intros Fh Hf E. rewrite get_full_path_parts in E. cbn [map filter] in E.
  change (convert_name []) with (@nil N) in E. cbn [ne] in E. rewrite map_map in E.
  assert (Fc : Forall part (map (fun p => convert_name (enc p)) h)).
  { apply Forall_map. eapply Forall_impl; [|exact Fh]. intros p Hp. apply conv_enc_low, Hp. }
  assert (Fq : Forall quiet (map (fun p => convert_name (enc p)) h)).
  { apply Forall_map. eapply Forall_impl; [|exact Fh]. intros p Hp. apply conv_enc_low, Hp. }
  rewrite filter_ne_parts in E by assumption.
  cbn [app location] in E. change (47 =? 47) with true in E. cbv iota zeta in E.
  rewrite pieces_join_app in E by (eapply Forall_impl; [|exact Fc]; intros p (A & B & C); exact C).
  rewrite (pieces_one (convert_name f)) in E by now apply convert_noslash. rewrite last_last in E.
  destruct (str_dec (convert_name f) []) as [|K1]; [discriminate|].
  destruct (str_dec (convert_name f) dot) as [|K2]; [discriminate|].
  destruct (str_dec (convert_name f) dotdot) as [|K3]; [discriminate|].
  split; [intros ->; apply K1; reflexivity|]. injection E as <-.
  rewrite walk_low by (apply Forall_app; split; [assumption|repeat constructor; exact K3]).
  cbn [app]. rewrite filter_app. cbn [filter]. fold named. unfold named at 2.
  destruct (str_dec (convert_name f) []); [contradiction|]. destruct (str_dec (convert_name f) dot); [contradiction|reflexivity].
Qed.
Lemma filter_plain ws : Forall plain ws -> filter named (map (fun p => convert_name (enc p)) ws) = ws.
Proof.
  induction 1 as [|w ws P F IH]; [reflexivity|]. cbn [map filter]. destruct (conv_enc_plain w P) as (E & _ & N1).
  now rewrite E, N1, IH.
Qed.
Lemma plain_parts ws : Forall plain ws -> filter ne (map convert_name ([] :: ws)) = ws /\ Forall part ws /\ Forall low ws
  /\ map enc ws = ws.
Proof.
  intros F. cbn [map filter]. change (convert_name []) with (@nil N). cbn [ne].
  induction F as [|w ws P F (I1 & I2 & I3 & I4)]; [auto|]. destruct (plain_enc w P) as (E1 & E2).
  destruct P as (W & H1 & H2 & H3 & H4 & H5 & H6).
  cbn [map filter]. rewrite E1, E2, I1, I4, ne_true by assumption. repeat split; constructor; try assumption; repeat split; assumption.
Qed.
