(** RemoveFile, and sessions with the file on disk. *)
From Coq Require Import List NArith ZArith Lia Bool.
From Coq Require Import ZifyN ZifyNat ZifyBool.
From Verif Require Import Bytes BytesProofs ZipModel ZipProofs ZipSpec ZipProofs2.
Import ListNotations.
Open Scope N_scope.
Ltac Zify.zify_post_hook ::= Z.div_mod_to_equations.

Lemma Forall2_len {A B} (R : A -> B -> Prop) l l' : Forall2 R l l' -> length l = length l'.
Proof. induction 1 as [|a b l l' H HF IH]; cbn [length]; [reflexivity|]. rewrite IH. reflexivity. Qed.

Fixpoint lpos (off : N) (es : list zentry) (path : list N) : option N :=
  match es with
  | [] => None
  | e :: es' => if beq_bytes (e_name e) path then Some off else lpos (off + esize e) es' path
  end.

Lemma find_local_ok buf path es :
  path <> [] -> nlen buf + 64 <= two32 -> Forall wf_entry es ->
  forall a p off fuel, at_ buf p (centrals off es ++ end_header a) ->
  a_comment a = [] -> nlen buf = p + sum_csize es + 22 -> off + sum_esize es < two32 ->
  (length es < fuel)%nat ->
  find_local fuel buf path p = ZOk (match lpos off es path with Some q => q | None => 0 end).
Proof.
  intros Hp Hb Hw. induction Hw as [|e es We Hw IH]; intros a p off fuel A Ha Hl Hoff Hf.
  - destruct fuel as [|fuel]; [cbn [length] in Hf; lia|].
    cbn [centrals app lpos sum_csize fold_right] in *. cbn [find_local].
    unfold end_header in A. apply at_app in A. destruct A as [A _].
    rewrite (read_long_at _ _ _ A) by u32lia. cbn [zbind].
    change (sig_end mod two32 =? sig_central) with false. cbn [negb].
    rewrite (u32_small (p + 4 + 24)) by u32lia.
    rewrite read_short_past by lia. cbn [zbind].
    rewrite read_short_past by lia. cbn [zbind].
    rewrite read_short_past by lia. cbn [zbind].
    rewrite (u32_small (p + 4 + 24 + 8)) by u32lia.
    rewrite read_long_past by lia. cbn [zbind].
    unfold read_name, rd. cbn [N.ltb N.compare N.eqb zbind].
    destruct path as [|c t]; [congruence|]. rewrite nlen_cons.
    replace (1 + nlen t =? 0) with false by lia. reflexivity.
  - destruct fuel as [|fuel]; [cbn [length] in Hf; lia|].
    cbn [centrals lpos] in *. rewrite sum_csize_cons, sum_esize_cons in *. rewrite <- app_assoc in A.
    apply at_app in A. destruct A as [A A']. rewrite nlen_central_header in A'.
    assert (Hes : nlen (e_data e) < two32) by (unfold esize in *; lia).
    destruct (central_reads buf p e off A We) as (R0 & R1 & R2 & R3 & R4 & R5 & R6 & R7 & R8 & R9 & R10 & R11 & R12 & R13 & R14 & R15 & R16 & R17 & R18 & R19); try u32lia.
    cbn [find_local]. rewrite R0. cbn [zbind]. rewrite N.eqb_refl. cbn [negb].
    replace (u32 (p + 4 + 24)) with (p + 28) by (unfold csize in *; u32lia).
    rewrite R10. cbn [zbind]. rewrite R11. cbn [zbind]. rewrite R12. cbn [zbind].
    replace (u32 (p + 34 + 8)) with (p + 42) by (unfold csize in *; u32lia).
    rewrite R16. cbn [zbind]. rewrite R17. cbn [zbind].
    destruct (beq_bytes (e_name e) path) eqn:B.
    + pose proof B as B'. apply beq_bytes_spec in B'. rewrite <- B', N.eqb_refl. reflexivity.
    + rewrite andb_false_r.
      replace (u32 (p + 46 + nlen (e_name e) + 0 + 0)) with (p + csize e) by (unfold csize in *; u32lia).
      apply (IH a _ (off + esize e)); try assumption; cbn [length] in Hf; lia.
Qed.

Lemma lpos_split es1 e es2 path : forall off,
  ~ In path (map e_name es1) -> e_name e = path -> lpos off (es1 ++ e :: es2) path = Some (off + sum_esize es1).
Proof.
  induction es1 as [|x es1 IH]; intros p Hni He; cbn [app lpos map] in *.
  - rewrite (proj2 (beq_bytes_spec _ _) He). f_equal. unfold sum_esize. cbn [fold_right]. lia.
  - destruct (beq_bytes (e_name x) path) eqn:B.
    + apply beq_bytes_spec in B. exfalso. apply Hni. left. exact B.
    + rewrite IH; [|intros H; apply Hni; right; exact H|exact He]. f_equal. rewrite sum_esize_cons. lia.
Qed.

Lemma local_header_pos_archive es1 e es2 : wf_arch (es1 ++ e :: es2) -> ~ In (e_name e) (map e_name es1) ->
  local_header_pos (archive (es1 ++ e :: es2)) (e_name e) = ZOk (sum_esize es1).
Proof.
  intros Hw Hni. set (L := es1 ++ e :: es2) in *.
  assert (Hne : L <> []) by (unfold L; destruct es1; discriminate).
  assert (We : wf_entry e) by (apply (wf_arch_in L); [exact Hw|unfold L; apply in_or_app; right; left; reflexivity]).
  pose proof (wf_name_ne _ We) as Hp.
  unfold local_header_pos. rewrite (central_dir_pos_archive L Hne Hw). cbn [zbind].
  destruct (sums_split es1 e es2) as [SE SC]. fold L in SE, SC.
  replace (sum_esize L =? 0) with false by (unfold esize in *; lia).
  assert (Hp0 : nlen (e_name e) =? 0 = false) by (apply N.eqb_neq; intros H; apply nlen_0 in H; congruence).
  rewrite Hp0. cbn [orb]. pose proof Hw as [Hwe Hc Ho Hsz]. pose proof (nlen_archive L) as Hl.
  rewrite (find_local_ok _ (e_name e) L Hp Hsz Hwe (ai_of L) (sum_esize L) 0).
  - pose proof (lpos_split es1 e es2 (e_name e) 0 Hni eq_refl) as EL. fold L in EL. rewrite EL. reflexivity.
  - exists (locals L), []. split; [unfold archive; rewrite app_nil_r; reflexivity | apply nlen_locals].
  - reflexivity.
  - lia.
  - u32lia.
  - pose proof (length_locals_ge L). lia.
Qed.

(** The records collected by RemoveFile. *)
Fixpoint infos (off : N) (es : list zentry) : list finfo :=
  match es with [] => [] | e :: es' => info_of e off :: infos (off + esize e) es' end.

Section Rem.
Variable o : oracle.
Variable L : list zentry.
Hypothesis Hw : wf_arch L.
Hypothesis Hd : NoDup (map e_name L).
Hypothesis Hu0 : o_utf8 o [] = true.
Hypothesis Hu : Forall (fun e => o_utf8 o (e_name e) = true) L.

Lemma nodup_pre pre x post : L = pre ++ x :: post -> ~ In (e_name x) (map e_name pre).
Proof. intros E. rewrite E, map_app in Hd. cbn [map] in Hd. apply NoDup_remove_2 in Hd. intros H. apply Hd. apply in_or_app. left. exact H. Qed.

Lemma step_facts pre x post : L = pre ++ x :: post ->
  next_file (archive L) (e_name x) = match post with [] => ZOk None | y :: _ => ZOk (Some (e_name y)) end /\
  file_info o (archive L) (e_name x) = ZOk (Some (info_of x (sum_esize pre))) /\ e_name x <> [] /\ sum_esize pre + 64 < two32.
Proof.
  intros E. pose proof (nodup_pre _ _ _ E) as Hni.
  assert (Hx : In x L) by (rewrite E; apply in_or_app; right; left; reflexivity).
  assert (Hux : o_utf8 o (e_name x) = true) by (rewrite Forall_forall in Hu; auto).
  pose proof (wf_arch_in _ _ Hw Hx) as Wx. repeat split.
  - pose proof Hw as Hw'. rewrite E in Hw' |- *. apply next_skip; assumption.
  - pose proof Hw as Hw'. rewrite E in Hw' |- *. apply file_info_archive; assumption.
  - apply wf_name_ne. exact Wx.
  - destruct Hw as [_ _ _ Hs]. rewrite nlen_archive in Hs. rewrite E in Hs at 1. destruct (sums_split pre x post) as [SE _].
    rewrite SE in Hs. unfold esize in Hs. lia.
Qed.

Lemma collect_after path rl post : forall pre x n acc,
  L = pre ++ x :: post -> ~ In path (map e_name (x :: post)) -> rl <= sum_esize pre -> (length post < n)%nat ->
  collect o (archive L) path rl n (e_name x) true acc = ZOk (acc ++ infos (sum_esize pre - rl) (x :: post)).
Proof.
  induction post as [|y post IH]; intros pre x n acc E Hni Hrl Hn; (destruct n as [|n]; [cbn [length] in Hn; lia|]); cbn [collect];
  destruct (step_facts _ _ _ E) as (E1 & E2 & E3 & E4); rewrite E1, E2; cbn [zbind];
  (assert (B : beq_bytes (e_name x) path = false) by
    (destruct (beq_bytes (e_name x) path) eqn:B; [apply beq_bytes_spec in B; exfalso; apply Hni; left; exact B|reflexivity]));
  rewrite B; cbn [info_of f_version f_flags f_method f_time f_date f_crc f_csize f_usize f_iattr f_eattr f_offset f_name f_comment];
  replace (u32 (sum_esize pre + (two32 - rl))) with (sum_esize pre - rl) by u32lia.
  - cbn [infos]. reflexivity.
  - assert (Ey : L = (pre ++ [x]) ++ y :: post) by (rewrite E, <- app_assoc; reflexivity).
    destruct (step_facts _ _ _ Ey) as (_ & _ & Hy & _).
    destruct (e_name y) as [|c t] eqn:Ey'; [congruence|]. rewrite <- Ey'.
    assert (SP : sum_esize (pre ++ [x]) = sum_esize pre + esize x) by (rewrite sum_esize_app, sum_esize_cons; cbn; lia).
    rewrite (IH (pre ++ [x]) y n); [| exact Ey | intros H; apply Hni; right; exact H | lia | cbn [length] in Hn; lia].
    rewrite SP. change (infos (sum_esize pre - rl) (x :: y :: post)) with (info_of x (sum_esize pre - rl) :: infos (sum_esize pre - rl + esize x) (y :: post)).
    replace (sum_esize pre + esize x - rl) with (sum_esize pre - rl + esize x) by lia.
    rewrite <- app_assoc. reflexivity.
Qed.

Lemma collect_before e es2 mid : forall pre n acc,
  L = pre ++ mid ++ e :: es2 -> (length mid + length es2 < n)%nat ->
  collect o (archive L) (e_name e) (esize e) n (match mid with x :: _ => e_name x | [] => e_name e end) false acc =
  ZOk (acc ++ infos (sum_esize pre) mid ++ infos (sum_esize pre + sum_esize mid) es2).
Proof.
  induction mid as [|x mid IH]; intros pre n acc E Hn; (destruct n as [|n]; [cbn [length] in Hn; lia|]); cbn [app] in E.
  - cbn [collect infos app]. destruct (step_facts _ _ _ E) as (E1 & E2 & E3 & E4). rewrite E1, E2.
    rewrite (proj2 (beq_bytes_spec _ _) eq_refl).
    destruct es2 as [|y es2]; cbn [zbind].
    + cbn [infos]. rewrite app_nil_r. reflexivity.
    + assert (Ey : L = (pre ++ [e]) ++ y :: es2) by (rewrite E, <- app_assoc; reflexivity).
      destruct (step_facts _ _ _ Ey) as (_ & _ & Hy & _).
      destruct (e_name y) as [|c t] eqn:Ey'; [congruence|]. rewrite <- Ey'.
      assert (SP : sum_esize (pre ++ [e]) = sum_esize pre + esize e) by (rewrite sum_esize_app, sum_esize_cons; cbn; lia).
      rewrite (collect_after (e_name e) (esize e) es2 (pre ++ [e]) y n acc Ey).
      * rewrite SP. do 3 f_equal. unfold sum_esize. cbn [fold_right]. lia.
      * intros H. rewrite E, map_app in Hd. cbn [map] in Hd. apply NoDup_remove_2 in Hd. apply Hd. apply in_or_app. right. exact H.
      * lia.
      * cbn [length] in Hn. lia.
  - cbn [collect]. destruct (step_facts _ _ _ E) as (E1 & E2 & E3 & E4). rewrite E1, E2.
    assert (B : beq_bytes (e_name x) (e_name e) = false).
    { destruct (beq_bytes (e_name x) (e_name e)) eqn:B; [|reflexivity]. apply beq_bytes_spec in B. exfalso.
      assert (Ee : L = (pre ++ x :: mid) ++ e :: es2) by (rewrite E, <- app_assoc; reflexivity).
      apply (nodup_pre _ _ _ Ee). rewrite map_app. apply in_or_app. right. left. exact B. }
    rewrite B.
    assert (Em : L = (pre ++ [x]) ++ mid ++ e :: es2) by (rewrite E, <- app_assoc; reflexivity).
    assert (SP : sum_esize (pre ++ [x]) = sum_esize pre + esize x) by (rewrite sum_esize_app, sum_esize_cons; cbn; lia).
    assert (EN : exists z rest, mid ++ e :: es2 = z :: rest /\ (match mid with y :: _ => e_name y | [] => e_name e end) = e_name z).
    { destruct mid as [|z mid]; cbn [app]; eexists _, _; split; reflexivity. }
    destruct EN as (z & rest & Ez & Enz). specialize (IH (pre ++ [x]) n (acc ++ [info_of x (sum_esize pre)]) Em ltac:(cbn [length] in Hn; lia)).
    rewrite Enz in IH. rewrite Ez in E1 |- *. cbn [zbind].
    assert (Hz : e_name z <> []).
    { rewrite Ez in Em. destruct (step_facts _ _ _ Em) as (_ & _ & Hz & _). exact Hz. }
    destruct (e_name z) as [|c t] eqn:Ez'; [congruence|]. rewrite <- Ez' in *. cbn [zbind].
    rewrite Ez'. rewrite <- Ez'. rewrite IH. rewrite SP. cbn [infos]. rewrite sum_esize_cons, <- !app_assoc. cbn [app].
    replace (sum_esize pre + esize x + sum_esize mid) with (sum_esize pre + (esize x + sum_esize mid)) by lia. reflexivity.
Qed.
End Rem.

Lemma le_bytes_mod n v : le_bytes n (v mod 256 ^ N.of_nat n) = le_bytes n v.
Proof.
  rewrite <- le_val_bytes_mod. pose proof (le_bytes_val (le_bytes n v) (le_bytes_ok n v)) as H.
  rewrite le_bytes_length in H. exact H.
Qed.

Lemma central_of_info_of e off : central_of_info 0 [] (info_of e off) = central_header 0 [] e off.
Proof.
  unfold central_of_info, central_header, info_of.
  cbn [f_version f_flags f_method f_time f_date f_crc f_csize f_usize f_iattr f_eattr f_offset f_name f_comment].
  unfold ws, wl. change (nlen (@nil N)) with 0.
  rewrite <- pow256_2, <- pow256_4. rewrite !le_bytes_mod. reflexivity.
Qed.

Lemma infos_bytes es : forall off, concat (map (central_of_info 0 []) (infos off es)) = centrals off es.
Proof. induction es as [|e es IH]; intros off; cbn [infos map concat centrals]; [reflexivity|]. rewrite central_of_info_of, IH. reflexivity. Qed.

Lemma infos_app a b : forall off, infos off (a ++ b) = infos off a ++ infos (off + sum_esize a) b.
Proof.
  induction a as [|e a IH]; intros off; cbn [infos app].
  - unfold sum_esize. cbn [fold_right]. rewrite N.add_0_r. reflexivity.
  - rewrite IH, sum_esize_cons. do 3 f_equal. lia.
Qed.

(** What RemoveFile leaves behind, byte for byte. *)
Lemma remove_exact o writable es1 e es2 :
  let L := es1 ++ e :: es2 in
  wf_arch L -> NoDup (map e_name L) -> o_utf8 o [] = true -> Forall (fun x => o_utf8 o (e_name x) = true) L ->
  remove_file o writable (archive L) (e_name e) =
  ZOk (if writable
       then archive L ++ locals (es1 ++ es2) ++ centrals 0 es1 ++ centrals 0 (es1 ++ es2) ++ end_header (ai_of (es1 ++ es2))
       else archive L).
Proof.
  intros L Hw Hd Hu0 Hu.
  assert (Hne : L <> []) by (unfold L; destruct es1; discriminate).
  assert (Hni : ~ In (e_name e) (map e_name es1)) by (eapply nodup_pre; [exact Hd|reflexivity]).
  assert (Hin : In e L) by (unfold L; apply in_or_app; right; left; reflexivity).
  pose proof (wf_arch_in _ _ Hw Hin) as We. pose proof (wf_name_ne _ We) as Hp.
  destruct (sums_split es1 e es2) as [SE SC]. fold L in SE, SC.
  pose proof (nlen_archive L) as Hl. pose proof Hw as [Hwe Hc Ho Hsz].
  unfold remove_file. rewrite (central_header_pos_archive L _ Hne Hw Hp). unfold cposz.
  pose proof (cpos_split es1 e es2 (e_name e) (sum_esize L) Hni eq_refl) as EC. fold L in EC. rewrite EC. cbn [zbind].
  replace (sum_esize L + sum_csize es1 =? 0) with false by (unfold esize in *; lia).
  unfold L at 1. rewrite (local_header_pos_archive es1 e es2 Hw Hni). cbn [zbind].
  pose proof (local_at es1 e es2) as A. fold L in A. unfold local_header in A. rewrite <- !app_assoc in A. at_split A.
  assert (EQ : forall q x, x = q -> forall v, at_ (archive L) q v -> at_ (archive L) x v) by (intros ? ? -> ? ?; assumption).
  set (Q := sum_esize es1) in *. fold L.
  assert (B1 : read_long (archive L) (u32 (Q + 18)) = ZOk (nlen (e_data e), Q + 22)).
  { match goal with H : at_ _ ?q (wl (nlen (e_data e))) |- _ =>
      rewrite (read_long_at (archive L) (u32 (Q + 18)) _ (EQ q (u32 (Q + 18)) ltac:(unfold esize in *; u32lia) _ H)) by u32lia end.
    apply f_equal, f_equal2; [apply N.mod_small; unfold esize in *; u32lia|unfold esize in *; u32lia]. }
  rewrite B1. cbn [zbind].
  assert (B2 : read_short (archive L) (u32 (Q + 22 + 4)) = ZOk (nlen (e_name e), Q + 28)).
  { destruct We as [[Hn _] _].
    match goal with H : at_ _ ?q (ws (nlen (e_name e))) |- _ =>
      rewrite (read_short_at (archive L) (u32 (Q + 22 + 4)) _ (EQ q (u32 (Q + 22 + 4)) ltac:(unfold esize in *; u32lia) _ H)) by u32lia end.
    apply f_equal, f_equal2; [apply N.mod_small; u32lia|unfold esize in *; u32lia]. }
  rewrite B2. cbn [zbind].
  assert (B3 : read_short (archive L) (Q + 28) = ZOk (0, Q + 30)).
  { match goal with H : at_ _ ?q (ws 0), H2 : at_ _ (?q + 2) (e_name e) |- _ =>
      rewrite (read_short_at (archive L) (Q + 28) _ (EQ q (Q + 28) ltac:(lia) _ H)) by u32lia end.
    apply f_equal, f_equal2; [reflexivity|lia]. }
  rewrite B3. cbn [zbind].
  set (P := sum_esize L + sum_csize es1) in *.
  pose proof (central_at es1 e es2) as C. fold L in C. fold P in C.
  destruct (central_reads _ P e _ C We) as (R0 & R1 & R2 & R3 & R4 & R5 & R6 & R7 & R8 & R9 & R10 & R11 & R12 & R13 & R14 & R15 & R16 & R17 & R18 & R19); try (unfold esize in *; u32lia).
  replace (u32 (P + 28)) with (P + 28) by (unfold csize in *; u32lia).
  rewrite R10. cbn [zbind]. rewrite R11. cbn [zbind]. rewrite R12. cbn [zbind].
  rewrite (archive_info_archive o L Hne Hw Hu0). cbn [zbind].
  assert (EF : exists z rest, L = z :: rest /\ (match es1 with x :: _ => e_name x | [] => e_name e end) = e_name z).
  { unfold L. destruct es1 as [|z es1']; cbn [app]; eexists _, _; split; reflexivity. }
  destruct EF as (z & rest & Ez & Enz).
  assert (B4 : next_file (archive L) [] = ZOk (Some (e_name z))).
  { rewrite Ez in Hw |- *. apply next_first. exact Hw. }
  rewrite B4. cbn [zbind].
  replace (u32 (30 + nlen (e_name e) + 0 + nlen (e_data e))) with (esize e) by (unfold esize in *; u32lia).
  replace (u32 (46 + nlen (e_name e) + 0 + 0)) with (csize e) by (unfold csize in *; u32lia).
  pose proof (collect_before o L Hw Hd Hu0 Hu e es2 es1 [] (N.to_nat (a_total (ai_of L))) [] eq_refl) as CB.
  rewrite Enz in CB. rewrite CB; clear CB.
  2: { cbn [ai_of a_total]. unfold nlen. rewrite Nat2N.id. unfold L. rewrite app_length. cbn [length]. lia. }
  cbn [zbind app]. change (sum_esize []) with 0. rewrite N.add_0_l. fold Q.
  rewrite (rd_at _ 0 (locals es1) Q); [| |unfold Q; rewrite nlen_locals; reflexivity].
  2: { exists [], (locals (e :: es2) ++ centrals 0 L ++ end_header (ai_of L)). split; [|reflexivity].
       unfold archive, L. rewrite locals_app, <- app_assoc. reflexivity. }
  cbn [zbind].
  rewrite (rd_at _ _ (locals es2 ++ centrals 0 es1)).
  2: { exists (locals es1 ++ local_bytes e), (centrals Q (e :: es2) ++ end_header (ai_of L)). split.
       - assert (E1 : locals L = locals es1 ++ local_bytes e ++ locals es2) by (unfold L; rewrite locals_app; reflexivity).
         assert (E2 : centrals 0 L = centrals 0 es1 ++ centrals Q (e :: es2)) by (unfold L; rewrite centrals_app; reflexivity).
         unfold archive. rewrite E1, E2, <- !app_assoc. reflexivity.
       - rewrite nlen_app, nlen_locals, nlen_local_bytes. fold Q. unfold esize in *. u32lia. }
  2: { rewrite nlen_app, nlen_locals, nlen_centrals. unfold P. unfold esize in *. u32lia. }
  cbn [zbind]. destruct writable; [|reflexivity].
  cbn [ai_of a_start a_comment a_disk a_cddisk a_entries a_total a_cdsize a_cdoff].
  do 2 f_equal. rewrite locals_app, <- !app_assoc. do 3 f_equal.
  assert (EI : infos 0 es1 ++ infos Q es2 = infos 0 (es1 ++ es2)) by (rewrite infos_app; reflexivity).
  rewrite EI, infos_bytes. f_equal.
  unfold ai_of. rewrite sum_esize_app, sum_csize_app. fold Q.
  assert (HL : nlen L = nlen (es1 ++ es2) + 1) by (unfold L; rewrite !nlen_app, nlen_cons; lia).
  apply f_equal. apply ai_eq; rewrite ?HL, ?SE, ?SC; unfold esize, csize in *; u32lia.
Qed.

(** ** Sessions *)
Lemma z_adds_run o ops : forall s b, z_buf s = Some b -> z_write s = true ->
  z_adds o ops s =
  (do! (cs, b') <- run_adds o (z_compress s) ops b;
   ZOk (cs, {| z_disk := z_disk s; z_buf := Some b'; z_forread := z_forread s; z_write := true; z_compress := z_compress s |})).
Proof.
  induction ops as [|[[clock path] data] ops IH]; intros s b Hb Hw; cbn [z_adds run_adds].
  - cbn [zbind]. destruct s; cbn in *; subst; reflexivity.
  - unfold z_add. rewrite Hb, Hw. destruct (add_file o (z_compress s) clock b path data) as [[c b']| | | |]; cbn [zbind]; try reflexivity.
    rewrite (IH _ b'); [|reflexivity|reflexivity]. cbn [z_compress z_disk z_forread].
    destruct (run_adds o (z_compress s) ops b') as [[cs b'']| | | |]; reflexivity.
Qed.

(** ** Facts about the abstract archive *)
Lemma fits_run packed ops : forall f, f = [] \/ fits packed f ->
  reachable_fit packed f ops ->
  snd (spec_run packed f ops) = [] \/ fits packed (snd (spec_run packed f ops)).
Proof.
  induction ops as [|[[c p] d] ops IH]; intros f Hf Hr; cbn [spec_run]; [exact Hf|].
  cbn [reachable_fit] in Hr. destruct Hr as [H1 H2].
  destruct (spec_add packed f p d) as [code f'] eqn:ES. cbn [snd] in H1, H2.
  specialize (IH f' (or_intror H1) H2). destruct (spec_run packed f' ops) as [cs f''].
  cbn [snd] in *. exact IH.
Qed.

Lemma spec_nodup packed ops : forall f, NoDup (map fst f) -> NoDup (map fst (snd (spec_run packed f ops))).
Proof.
  induction ops as [|[[c p] d] ops IH]; intros f Hf; cbn [spec_run]; [exact Hf|].
  destruct (spec_add packed f p d) as [code f'] eqn:ES.
  assert (Hf' : NoDup (map fst f')).
  { unfold spec_add in ES. destruct (mem _ f) eqn:M; injection ES as _ <-; [exact Hf|].
    rewrite map_app. cbn [map fst]. apply NoDup_Add with (a := map (fun c0 => if c0 =? 92 then 47 else c0) p) (l := map fst f).
    - rewrite <- (app_nil_r (map fst f)) at 1. apply Add_app.
    - split; [exact Hf|]. intros Hin. apply mem_spec in Hin. congruence. }
  specialize (IH f' Hf'). destruct (spec_run packed f' ops) as [cs f'']. exact IH.
Qed.

