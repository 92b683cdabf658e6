(** Refinement of the archive operations to an abstract list of named contents. *)
From Coq Require Import List NArith ZArith Lia Bool.
From Coq Require Import ZifyN ZifyNat ZifyBool.
From Verif Require Import Bytes BytesProofs ZipModel ZipProofs ZipSpec.
Import ListNotations.
Open Scope N_scope.
Ltac Zify.zify_post_hook ::= Z.div_mod_to_equations.

Section R.
Variable o : oracle.
Variable compress : bool.

Definition packed (d : list N) : list N := snd (pack o compress d).

(** entry [e] holds content [f] *)
Definition rep1 (e : zentry) (f : list N * list N) : Prop :=
  e_name e = fst f /\ e_method e = fst (pack o compress (snd f)) /\ e_data e = snd (pack o compress (snd f)).

Lemma rep_names es fs : Forall2 rep1 es fs -> map e_name es = map fst fs.
Proof. induction 1 as [|e f es fs (H & _) HF IH]; cbn [map]; [reflexivity|]. rewrite H, IH. reflexivity. Qed.

Lemma rep_esize es fs : Forall2 rep1 es fs -> sum_esize es = area packed fs.
Proof.
  induction 1 as [|e f es fs (H & _ & H2) HF IH]; [reflexivity|]. rewrite sum_esize_cons, IH.
  unfold area. cbn [fold_right]. unfold esize. rewrite H, H2. reflexivity.
Qed.
Lemma rep_csize es fs : Forall2 rep1 es fs -> sum_csize es = directory fs.
Proof.
  induction 1 as [|e f es fs (H & _ & H2) HF IH]; [reflexivity|]. rewrite sum_csize_cons, IH.
  unfold directory. cbn [fold_right]. unfold csize. rewrite H. reflexivity.
Qed.
Lemma rep_len es fs : Forall2 rep1 es fs -> nlen es = nlen fs.
Proof. induction 1 as [|e f es fs _ HF IH]; [reflexivity|]. rewrite !nlen_cons, IH. reflexivity. Qed.

Lemma pack_method d : fst (pack o compress d) < two16.
Proof. unfold pack, two16. destruct compress; cbn [fst]; lia. Qed.

Lemma rep_wf es fs : Forall2 rep1 es fs -> fits packed fs -> wf_arch es.
Proof.
  intros HR [H1 H2 H3 H4]. split.
  - clear H2 H3 H4. revert H1. induction HR as [|e f es fs (Hn & Hm & Hd) HF IH]; intros H1; constructor.
    + inversion H1 as [|x y Hx Hy]; subst. split.
      * rewrite Hn. destruct Hx as [Hl Hz]. split; [exact Hl|]. intros c t E. rewrite E in Hz. exact Hz.
      * rewrite Hm. apply pack_method.
    + apply IH. inversion H1; assumption.
  - rewrite (rep_len _ _ HR). exact H2.
  - rewrite (rep_esize _ _ HR). exact H3.
  - rewrite nlen_archive, (rep_esize _ _ HR), (rep_csize _ _ HR). unfold two32. lia.
Qed.

Hypothesis utf8_nil : o_utf8 o [] = true.

Lemma mem_spec n fs : mem n fs = true <-> In n (map fst fs).
Proof.
  induction fs as [|f fs IH]; cbn [mem existsb map In].
  - split; [discriminate|tauto].
  - unfold mem in IH. rewrite orb_true_iff, IH, beq_bytes_spec. reflexivity.
Qed.

Lemma area_snoc fs f : area packed (fs ++ [f]) = area packed fs + (30 + nlen (fst f) + nlen (packed (snd f))).
Proof. induction fs as [|x fs IH]; [unfold area; cbn; lia|]. cbn [app]. unfold area in *. cbn [fold_right]. rewrite IH. lia. Qed.

Lemma add_refines es fs clock path data :
  Forall2 rep1 es fs -> fs = [] \/ fits packed fs ->
  (mem (norm_path path) fs = false -> fits packed (fs ++ [(norm_path path, data)])) ->
  let '(code, fs') := spec_add packed fs path data in
  exists es', Forall2 rep1 es' fs' /\
    add_file o compress clock (arch es) path data = ZOk (code, arch es').
Proof.
  intros HR Hf Hf'. unfold spec_add. fold (norm_path path).
  destruct (mem (norm_path path) fs) eqn:M.
  - exists es. split; [exact HR|].
    apply mem_spec in M. rewrite <- (rep_names _ _ HR) in M.
    destruct Hf as [->|Hf]; [inversion HR; subst; destruct M|].
    apply add_exists; [eapply rep_wf; eassumption | exact M].
  - specialize (Hf' eq_refl).
    set (e := entry_of o compress clock (norm_path path) data).
    assert (HR' : Forall2 rep1 (es ++ [e]) (fs ++ [(norm_path path, data)])).
    { apply Forall2_app; [exact HR|]. constructor; [|constructor]. repeat split. }
    exists (es ++ [e]). split; [exact HR'|].
    pose proof (rep_wf _ _ HR' Hf') as [Hw Hc Ho Hs].
    rewrite nlen_app, nlen_cons, nlen_nil in Hc.
    apply add_new.
    + destruct Hf as [->|Hf]; [left; inversion HR; reflexivity|right; eapply rep_wf; eassumption].
    + apply Forall_app in Hw. destruct Hw as [_ Hw]. inversion Hw as [|x y Hx Hy]; subst.
      pose proof (wf_name_ne _ Hx) as Hn. exact Hn.
    + rewrite (rep_names _ _ HR). intros Hin. apply mem_spec in Hin. congruence.
    + exact utf8_nil.
    + fold e. lia.
    + unfold two16. lia.
Qed.

Lemma run_refines ops : forall es fs,
  Forall2 rep1 es fs -> fs = [] \/ fits packed fs -> reachable_fit packed fs ops ->
  exists es', Forall2 rep1 es' (snd (spec_run packed fs ops)) /\
    run_adds o compress ops (arch es) = ZOk (fst (spec_run packed fs ops), arch es').
Proof.
  induction ops as [|[[clock path] data] ops IH]; intros es fs HR Hf Hr; cbn [run_adds spec_run].
  - exists es. auto.
  - cbn [reachable_fit] in Hr. destruct Hr as [Hr1 Hr2].
    pose proof (add_refines es fs clock path data HR Hf) as HA.
    destruct (spec_add packed fs path data) as [code fs'] eqn:ES.
    destruct HA as (es' & HR' & EA).
    { intros M. unfold spec_add in ES. fold (norm_path path) in ES. rewrite M in ES. injection ES as _ <-. apply Hr1. }
    rewrite EA. cbn [zbind].
    destruct (IH es' fs' HR') as (es2 & HR2 & E2); [right; exact Hr1 | exact Hr2|].
    rewrite E2. cbn [zbind]. destruct (spec_run packed fs' ops) as [cs fs2] eqn:ER. cbn [fst snd] in *.
    exists es2. auto.
Qed.

Lemma rep_split es fs1 f fs2 : Forall2 rep1 es (fs1 ++ f :: fs2) ->
  exists es1 e es2, es = es1 ++ e :: es2 /\ Forall2 rep1 es1 fs1 /\ rep1 e f /\ Forall2 rep1 es2 fs2.
Proof.
  intros H. apply Forall2_app_inv_r in H. destruct H as (es1 & r & H1 & H2 & ->).
  inversion H2 as [|e f' es2 fs2' He H2']; subst. exists es1, e, es2. auto.
Qed.

Lemma lookup_split n fs d : lookup n fs = Some d ->
  exists fs1 fs2, fs = fs1 ++ (n, d) :: fs2 /\ ~ In n (map fst fs1).
Proof.
  induction fs as [|[m c] fs IH]; cbn [lookup]; [discriminate|].
  destruct (beq_bytes m n) eqn:B.
  - intros H; injection H as ->. apply beq_bytes_spec in B. subst m. exists [], fs. split; [reflexivity|intros []].
  - intros H. destruct (IH H) as (fs1 & fs2 & -> & Hn). exists ((m, c) :: fs1), fs2. split; [reflexivity|].
    cbn [map fst]. intros [E|E]; [|contradiction]. rewrite (proj2 (beq_bytes_spec _ _) E) in B. discriminate.
Qed.

Hypothesis inflate_deflate : forall d, o_inflate o (o_deflate o d) = Some d.

Lemma unpack_pack d : unpack o (fst (pack o compress d)) (snd (pack o compress d)) = Some d.
Proof.
  unfold pack, unpack. destruct compress; cbn [fst snd].
  - change (8 =? 12) with false. change (8 =? 0) with false. cbv iota. apply inflate_deflate.
  - reflexivity.
Qed.

Lemma get_refines es fs n d : Forall2 rep1 es fs -> fits packed fs -> lookup n fs = Some d ->
  o_utf8 o n = true -> get_file o (archive es) n = ZOk (Some d).
Proof.
  intros HR Hf Hl Hu. destruct (lookup_split _ _ _ Hl) as (fs1 & fs2 & -> & Hni).
  pose proof (rep_wf _ _ HR Hf) as Hw.
  destruct (rep_split _ _ _ _ HR) as (es1 & e & es2 & -> & H1 & (He & Hm & Hd) & H2).
  cbn [fst snd] in *. subst n.
  rewrite get_file_archive.
  - rewrite Hm, Hd, unpack_pack. reflexivity.
  - exact Hw.
  - rewrite (rep_names _ _ H1). exact Hni.
  - exact utf8_nil.
  - exact Hu.
Qed.

Lemma info_missing es fs n : Forall2 rep1 es fs -> fs = [] \/ fits packed fs -> n <> [] -> lookup n fs = None ->
  file_info o (arch es) n = ZOk None.
Proof.
  intros HR Hf Hn Hl. assert (Hni : ~ In n (map e_name es)).
  { rewrite (rep_names _ _ HR). clear HR Hf. induction fs as [|[m c] fs IH]; cbn [lookup map fst] in *; [intros []|].
    destruct (beq_bytes m n) eqn:B; [discriminate|]. intros [E|E]; [|apply IH; assumption].
    rewrite (proj2 (beq_bytes_spec _ _) E) in B. discriminate. }
  destruct es as [|e es].
  - reflexivity.
  - apply file_info_missing; [discriminate| |exact Hn|exact Hni].
    destruct Hf as [->|Hf]; [inversion HR|]. eapply rep_wf; eassumption.
Qed.
End R.

(** ** Walking *)
Lemma walk_suffix es2 : forall es1 e fuel, wf_arch (es1 ++ e :: es2) -> NoDup (map e_name (es1 ++ e :: es2)) ->
  (length es2 < fuel)%nat ->
  walk fuel (archive (es1 ++ e :: es2)) (e_name e) = ZOk (map e_name es2).
Proof.
  induction es2 as [|e2 es2 IH]; intros es1 e fuel Hw Hd Hf; (destruct fuel as [|fuel]; [cbn [length] in Hf; lia|]); cbn [walk].
  - assert (Hni : ~ In (e_name e) (map e_name es1)).
    { rewrite map_app in Hd. cbn [map] in Hd. apply NoDup_remove_2 in Hd. intros H. apply Hd. apply in_or_app. left. exact H. }
    rewrite (next_skip es1 e [] Hw Hni). reflexivity.
  - assert (Hni : ~ In (e_name e) (map e_name es1)).
    { rewrite map_app in Hd. cbn [map] in Hd. apply NoDup_remove_2 in Hd. intros H. apply Hd. apply in_or_app. left. exact H. }
    rewrite (next_skip es1 e (e2 :: es2) Hw Hni). cbn [zbind].
    assert (EQ : es1 ++ e :: e2 :: es2 = (es1 ++ [e]) ++ e2 :: es2) by (rewrite <- app_assoc; reflexivity).
    rewrite EQ in *. rewrite IH; [reflexivity|exact Hw|exact Hd|cbn [length] in Hf; lia].
Qed.

Lemma walk_all es : wf_arch es -> NoDup (map e_name es) -> walk (S (length es)) (arch es) [] = ZOk (map e_name es).
Proof.
  intros Hw Hd. destruct es as [|e es].
  - reflexivity.
  - cbn [walk]. change (arch (e :: es)) with (archive (e :: es)). rewrite (next_first e es Hw). cbn [zbind].
    pose proof (walk_suffix es [] e (length (e :: es)) Hw Hd) as H. cbn [app] in H. rewrite H by (cbn [length]; lia).
    reflexivity.
Qed.

(** With a repeated name the walk never ends. *)
Lemma dup_first (l : list (list N)) : ~ NoDup l -> exists l1 x l2, l = l1 ++ x :: l2 /\ In x l1 /\ NoDup l1.
Proof.
  intros H. 
  assert (G : forall l2 l1 : list (list N), NoDup l1 -> ~ NoDup (l1 ++ l2) -> exists k1 x k2, l1 ++ l2 = k1 ++ x :: k2 /\ In x k1 /\ NoDup k1).
  { induction l2 as [|x l2 IH]; intros l1 H1 H2.
    - rewrite app_nil_r in H2. contradiction.
    - destruct (in_dec (list_eq_dec N.eq_dec) x l1) as [Hi|Hi].
      + exists l1, x, l2. auto.
      + destruct (IH (l1 ++ [x])) as (k1 & y & k2 & E & Hy & Hk).
        * apply NoDup_Add with (a := x) (l := l1).
          { rewrite <- (app_nil_r l1) at 1. apply Add_app. }
          split; assumption.
        * rewrite <- app_assoc. exact H2.
        * rewrite <- app_assoc in E. exists k1, y, k2. auto. }
  apply (G l []); [constructor|exact H].
Qed.

Lemma walk_loops es : wf_arch es -> ~ NoDup (map e_name es) -> forall fuel, walk fuel (arch es) [] = ZFuel.
Proof.
  intros Hw Hd. destruct (dup_first _ Hd) as (l1 & x & l2 & El & Hx & Hl1).
  assert (Hne : exists e es0, es = e :: es0) by (destruct es as [|e es0]; [destruct l1; discriminate|eauto]).
  destruct Hne as (e & es0 & Ees).
  (* invariant: the current name is in l1 *)
  assert (Hstep : forall n, In n l1 -> exists m, next_file (archive es) n = ZOk (Some m) /\ In m l1).
  { intros n Hn. assert (Hin : In n (map e_name es)) by (rewrite El; apply in_or_app; left; exact Hn).
    destruct (in_first _ _ Hin) as (es1 & a & es2 & E & Hni & Ha).
    pose proof E as Ew. rewrite E in Hw. subst n. rewrite E. rewrite (next_skip es1 a es2 Hw Hni).
    (* position of a is inside l1 *)
    assert (Hlen : (length es1 < length l1)%nat).
    { assert (EE : map e_name es1 ++ e_name a :: map e_name es2 = l1 ++ x :: l2) by (rewrite <- El, E, map_app; reflexivity).
      destruct (Nat.lt_ge_cases (length es1) (length l1)) as [Hlt|Hge]; [exact Hlt|exfalso].
      apply Hni. assert (EF : firstn (length l1) (map e_name es1) = l1).
      { transitivity (firstn (length l1) (map e_name es1 ++ e_name a :: map e_name es2)).
        - rewrite firstn_app. replace (length l1 - length (map e_name es1))%nat with 0%nat by (rewrite map_length; lia).
          cbn [firstn]. rewrite app_nil_r. reflexivity.
        - rewrite EE. apply firstn_exact. reflexivity. }
      rewrite <- (firstn_skipn (length l1) (map e_name es1)). apply in_or_app. left. rewrite EF. exact Hn. }
    destruct es2 as [|e2 es2].
    - exfalso. assert (EE : map e_name es1 ++ [e_name a] = l1 ++ x :: l2) by (rewrite <- El, E, map_app; reflexivity).
      apply (f_equal (@length _)) in EE. rewrite !app_length in EE. cbn [length] in EE. rewrite map_length in EE. lia.
    - exists (e_name e2). split; [reflexivity|].
      assert (EE : map e_name es1 ++ e_name a :: e_name e2 :: map e_name es2 = l1 ++ x :: l2) by (rewrite <- El, E, map_app; reflexivity).
      assert (Hnth : nth_error (l1 ++ x :: l2) (S (length es1)) = Some (e_name e2)).
      { rewrite <- EE. rewrite nth_error_app2 by (rewrite map_length; lia). rewrite map_length.
        replace (S (length es1) - length es1)%nat with 1%nat by lia. reflexivity. }
      destruct (Nat.eq_dec (S (length es1)) (length l1)) as [EqL|NeL].
      + rewrite EqL, nth_error_app2, Nat.sub_diag in Hnth by lia. cbn in Hnth. injection Hnth as <-. exact Hx.
      + rewrite nth_error_app1 in Hnth by lia. eapply nth_error_In. exact Hnth. }
  assert (Hloop : forall fuel n, In n l1 -> walk fuel (archive es) n = ZFuel).
  { induction fuel as [|fuel IH]; intros n Hn; [reflexivity|]. cbn [walk].
    destruct (Hstep n Hn) as (m & E & Hm). rewrite E. cbn [zbind]. rewrite (IH m Hm). reflexivity. }
  intros [|fuel]; [reflexivity|]. cbn [walk]. subst es. change (arch (e :: es0)) with (archive (e :: es0)).
  rewrite (next_first e es0 Hw). cbn [zbind].
  rewrite Hloop; [reflexivity|].
  destruct l1 as [|y l1]; [destruct Hx|]. cbn [map app] in El. injection El as El1 El2. left. symmetry. exact El1.
Qed.

(** ** The blind spot of the end-record search *)
Lemma scan_blind es : es <> [] -> Forall wf_entry es -> nlen es < 19280 -> sum_esize es = sig_end ->
  nlen (archive es) + 64 <= two32 ->
  scan_end (archive es) (scan_start (archive es)) = ZOk (Some (nlen (archive es) - 6)).
Proof.
  intros Hne Hw Hc Ho Hs. pose proof (sum_csize_bound es Hw) as Hcb.
  set (buf := archive es) in *.
  assert (Hl : nlen buf = sum_esize es + sum_csize es + 22) by apply nlen_archive.
  set (E := nlen buf - 22).
  pose proof (end_at es) as Hat. fold buf in Hat.
  replace (sum_esize es + sum_csize es) with E in Hat by (unfold E; lia).
  assert (Hst : scan_start buf = (N.to_nat (E + 16) + 1)%nat).
  { unfold scan_start. rewrite (u32_small (nlen buf)) by u32lia. unfold u32. unfold two32 in *. unfold E. lia. }
  rewrite Hst, scan_end_skip.
  - destruct (N.to_nat (E + 16)) as [|r] eqn:EE; [lia|]. cbn [scan_end].
    replace (N.of_nat (S r)) with (E + 16) by lia.
    unfold end_header in Hat. at_split Hat. cbn [ai_of a_cdoff] in *.
    match goal with H : at_ _ ?p (wl (sum_esize es)) |- _ => replace (E + 16) with p by lia; rewrite (read_long_at _ _ _ H) by u32lia end.
    cbn [zbind]. rewrite Ho.
    match goal with |- context[(?a <? ?b) && _] => replace (a <? b) with true by lia end. cbn [andb].
    replace (sig_end mod two32 =? sig_end) with true by reflexivity. do 2 f_equal. unfold E. lia.
  - intros i Hi. assert (Hi' : i = E + 17) by lia. subst i. clear Hi.
    unfold read_long. replace (nlen buf <=? E + 17) with false by lia.
    unfold rd. cbn [N.eqb]. replace (E + 17 + 4 <=? nlen buf) with true by lia.
    cbn [zbind]. eexists _, _. split; [reflexivity|].
    apply andb_false_iff. right. apply N.eqb_neq.
    destruct Hat as (a & c & Eb & Ea). rewrite Eb at 1.
    assert (c = []) as ->.
    { apply nlen_0. assert (HH : nlen buf = nlen (a ++ end_header (ai_of es) ++ c)) by (rewrite <- Eb; reflexivity).
      rewrite !nlen_app, nlen_end_header in HH. cbn [ai_of a_comment] in HH. rewrite nlen_nil in HH. unfold E in Ea. lia. }
    rewrite app_nil_r, end_header_bytes, slice_app_r by lia.
    replace (E + 17 - nlen a) with 17 by lia. rewrite Ho. unfold slice, end_bytes.
    change (N.to_nat 17) with 17%nat. change (N.to_nat 4) with 4%nat. cbn [skipn firstn]. vm_compute. discriminate.
Qed.

Lemma central_dir_pos_blind es : es <> [] -> Forall wf_entry es -> nlen es < 19280 -> sum_esize es = sig_end ->
  nlen (archive es) + 64 <= two32 -> central_dir_pos (archive es) = ZOk 0.
Proof.
  intros Hne Hw Hc Ho Hs. pose proof (nlen_archive es) as Hl. unfold central_dir_pos, min_zip.
  replace (nlen (archive es) <? 22) with false by lia. rewrite scan_blind by assumption. cbn [zbind].
  rewrite read_long_past by u32lia. reflexivity.
Qed.

Lemma add_blind o compress clock es path data :
  es <> [] -> Forall wf_entry es -> nlen es < 19280 -> sum_esize es = sig_end -> nlen (archive es) + 64 <= two32 ->
  nlen (archive [entry_of o compress clock (norm_path path) data]) < two32 ->
  o_utf8 o [] = true -> norm_path path <> [] ->
  add_file o compress clock (archive es) path data =
  ZOk (add_code o compress data, archive [entry_of o compress clock (norm_path path) data]).
Proof.
  intros Hne Hw Hc Ho Hs Hs2 Hu Hp.
  pose proof (add_new o compress clock [] path data (or_introl eq_refl) Hp (fun H => match H with end) Hu Hs2 eq_refl) as HA.
  cbn [app arch] in HA. rewrite <- HA. unfold add_file, central_header_pos.
  rewrite (central_dir_pos_blind es) by assumption. cbn [zbind].
  unfold end_pos at 1. pose proof (nlen_archive es) as Hl. unfold min_zip.
  replace (nlen (archive es) <? 22) with false by lia. rewrite scan_blind by assumption.
  unfold central_dir_pos, end_pos, min_zip. change (nlen (@nil N) <? 22) with true. cbv iota. cbn [zbind].
  change ((0 =? 0) || (nlen (norm_path path) =? 0)) with true. cbv iota. cbn [zbind N.eqb negb].
  destruct (pack o compress data) as [m d]. rewrite !andb_false_r. reflexivity.
Qed.
