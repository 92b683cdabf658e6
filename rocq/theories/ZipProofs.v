(** Lemmas about [ZipModel]. *)
From Coq Require Import List NArith ZArith Lia Bool.
From Coq Require Import ZifyN ZifyNat ZifyBool.
From Verif Require Import Bytes BytesProofs ZipModel.
Import ListNotations.
Open Scope N_scope.
Ltac Zify.zify_post_hook ::= Z.div_mod_to_equations.

Ltac u32lia := unfold u32, u16, two32, two16 in *; lia.

Lemma u32_small x : x < two32 -> u32 x = x.
Proof. intros H. unfold u32. apply N.mod_small. exact H. Qed.
Lemma u16_small x : x < two16 -> u16 x = x.
Proof. intros H. unfold u16. apply N.mod_small. exact H. Qed.

Lemma beq_bytes_spec a b : beq_bytes a b = true <-> a = b.
Proof.
  revert b; induction a as [|x a IH]; intros [|y b]; cbn [beq_bytes]; split; intros H; try discriminate; auto.
  - apply andb_prop in H. destruct H as [H1 H2]. apply N.eqb_eq in H1. apply IH in H2. congruence.
  - injection H as -> ->. rewrite N.eqb_refl. apply IH. reflexivity.
Qed.

(** [l] lies at position [pos] of [buf]. *)
Definition at_ (buf : list N) (pos : N) (l : list N) : Prop :=
  exists a c, buf = a ++ l ++ c /\ nlen a = pos.

Lemma at_len buf pos l : at_ buf pos l -> pos + nlen l <= nlen buf.
Proof. intros (a & c & -> & <-). rewrite !nlen_app. lia. Qed.

Lemma at_app buf pos l1 l2 : at_ buf pos (l1 ++ l2) -> at_ buf pos l1 /\ at_ buf (pos + nlen l1) l2.
Proof.
  intros (a & c & -> & <-). split.
  - exists a, (l2 ++ c). rewrite <- app_assoc. auto.
  - exists (a ++ l1), c. rewrite <- !app_assoc, nlen_app. auto.
Qed.

Lemma rd_at buf pos l n : at_ buf pos l -> n = nlen l -> rd buf pos n = ZOk l.
Proof.
  intros H ->. unfold rd. destruct (nlen l =? 0) eqn:E.
  - apply N.eqb_eq in E. apply nlen_0 in E. subst. reflexivity.
  - pose proof (at_len _ _ _ H) as Hl. destruct H as (a & c & -> & <-).
    replace (nlen a + nlen l <=? nlen (a ++ l ++ c)) with true by lia.
    f_equal. apply slice_mid; reflexivity.
Qed.

Lemma nlen_wl v : nlen (wl v) = 4. Proof. reflexivity. Qed.
Lemma nlen_ws v : nlen (ws v) = 2. Proof. reflexivity. Qed.

Lemma read_long_at buf pos v :
  at_ buf pos (wl v) -> nlen buf < two32 -> read_long buf pos = ZOk (v mod two32, pos + 4).
Proof.
  intros H Hs. pose proof (at_len _ _ _ H) as Hl. rewrite nlen_wl in Hl.
  unfold read_long. replace (nlen buf <=? pos) with false by lia.
  rewrite (rd_at _ _ _ _ H) by reflexivity. cbn [zbind]. unfold wl at 1. rewrite le_val_bytes_mod, pow256_4.
  rewrite u32_small by (unfold two32 in *; lia). reflexivity.
Qed.

Lemma read_short_at buf pos v :
  at_ buf pos (ws v) -> nlen buf < two32 -> read_short buf pos = ZOk (v mod two16, pos + 2).
Proof.
  intros H Hs. pose proof (at_len _ _ _ H) as Hl. rewrite nlen_ws in Hl.
  unfold read_short. replace (nlen buf <=? pos) with false by lia.
  rewrite (rd_at _ _ _ _ H) by reflexivity. cbn [zbind]. unfold ws at 1. rewrite le_val_bytes_mod, pow256_2.
  rewrite u32_small by (unfold two32 in *; lia). reflexivity.
Qed.

Lemma read_long_past buf pos : nlen buf <= pos -> read_long buf pos = ZOk (0, pos).
Proof. intros H. unfold read_long. replace (nlen buf <=? pos) with true by lia. reflexivity. Qed.
Lemma read_short_past buf pos : nlen buf <= pos -> read_short buf pos = ZOk (0, pos).
Proof. intros H. unfold read_short. replace (nlen buf <=? pos) with true by lia. reflexivity. Qed.

Lemma read_name_at buf pos l n :
  at_ buf pos l -> n = nlen l -> nlen l <= 1024 -> nlen buf < two32 -> read_name buf pos n = ZOk (l, pos + nlen l).
Proof.
  intros H -> Hn Hs. pose proof (at_len _ _ _ H) as Hl. unfold read_name.
  replace (1024 <? nlen l) with false by lia. rewrite (rd_at _ _ _ _ H eq_refl). cbn [zbind].
  rewrite u32_small by (unfold two32 in *; lia). reflexivity.
Qed.

Lemma read_block_at buf pos l n :
  at_ buf pos l -> n = nlen l -> nlen buf < two32 -> read_block buf pos n = ZOk (l, pos + nlen l).
Proof.
  intros H -> Hs. pose proof (at_len _ _ _ H) as Hl. unfold read_block.
  rewrite (rd_at _ _ _ _ H eq_refl). cbn [zbind].
  rewrite u32_small by (unfold two32 in *; lia). reflexivity.
Qed.

(** ** The archives the writer produces *)
Definition esize (e : zentry) : N := 30 + nlen (e_name e) + nlen (e_data e).
Definition csize (e : zentry) : N := 46 + nlen (e_name e).

Definition local_bytes (e : zentry) : list N := local_header e ++ e_data e.
Definition locals (es : list zentry) : list N := concat (map local_bytes es).
Fixpoint centrals (off : N) (es : list zentry) : list N :=
  match es with
  | [] => []
  | e :: es' => central_header 0 [] e off ++ centrals (off + esize e) es'
  end.
Definition sum_esize (es : list zentry) : N := fold_right (fun e s => esize e + s) 0 es.
Definition sum_csize (es : list zentry) : N := fold_right (fun e s => csize e + s) 0 es.
Lemma sum_esize_cons e es : sum_esize (e :: es) = esize e + sum_esize es. Proof. reflexivity. Qed.
Lemma sum_csize_cons e es : sum_csize (e :: es) = csize e + sum_csize es. Proof. reflexivity. Qed.
Definition ai_of (es : list zentry) : ainfo :=
  {| a_disk := 0; a_cddisk := 0; a_entries := nlen es; a_total := nlen es;
     a_cdsize := sum_csize es; a_cdoff := sum_esize es; a_start := 0; a_comment := [] |}.
Definition archive (es : list zentry) : list N := locals es ++ centrals 0 es ++ end_header (ai_of es).
(** The buffer after a possibly empty sequence of additions. *)
Definition arch (es : list zentry) : list N := match es with [] => [] | _ => archive es end.

Lemma nlen_local_header e : nlen (local_header e) = 30 + nlen (e_name e).
Proof. unfold local_header. rewrite !nlen_app, !nlen_wl, !nlen_ws. lia. Qed.
Lemma nlen_local_bytes e : nlen (local_bytes e) = esize e.
Proof. unfold local_bytes, esize. rewrite nlen_app, nlen_local_header. lia. Qed.
Lemma nlen_central_header e off : nlen (central_header 0 [] e off) = csize e.
Proof. unfold central_header, csize. rewrite !nlen_app, !nlen_wl, !nlen_ws, nlen_nil. lia. Qed.
Lemma nlen_locals es : nlen (locals es) = sum_esize es.
Proof.
  induction es as [|e es IH]; [reflexivity|]. unfold locals in *. cbn [map concat sum_esize fold_right].
  rewrite nlen_app, nlen_local_bytes, IH. reflexivity.
Qed.
Lemma nlen_centrals es off : nlen (centrals off es) = sum_csize es.
Proof.
  revert off; induction es as [|e es IH]; intros off; [reflexivity|]. cbn [centrals sum_csize fold_right].
  rewrite nlen_app, nlen_central_header, IH. reflexivity.
Qed.
Lemma nlen_end_header a : nlen (end_header a) = 22 + nlen (a_comment a).
Proof. unfold end_header. rewrite !nlen_app, !nlen_wl, !nlen_ws. lia. Qed.
Lemma nlen_archive es : nlen (archive es) = sum_esize es + sum_csize es + 22.
Proof. unfold archive. rewrite !nlen_app, nlen_locals, nlen_centrals, nlen_end_header. cbn [ai_of a_comment]. rewrite nlen_nil. lia. Qed.

Lemma locals_app a b : locals (a ++ b) = locals a ++ locals b.
Proof. unfold locals. rewrite map_app, concat_app. reflexivity. Qed.
Lemma centrals_app a b off : centrals off (a ++ b) = centrals off a ++ centrals (off + sum_esize a) b.
Proof.
  revert off; induction a as [|e a IH]; intros off; cbn [centrals app sum_esize fold_right].
  - rewrite N.add_0_r. reflexivity.
  - rewrite IH, <- app_assoc. do 3 f_equal. unfold sum_esize. lia.
Qed.
Lemma sum_esize_app a b : sum_esize (a ++ b) = sum_esize a + sum_esize b.
Proof. induction a as [|e a IH]; [reflexivity|]. cbn [app]. unfold sum_esize in *. cbn [fold_right]. lia. Qed.
Lemma sum_csize_app a b : sum_csize (a ++ b) = sum_csize a + sum_csize b.
Proof. induction a as [|e a IH]; [reflexivity|]. cbn [app]. unfold sum_csize in *. cbn [fold_right]. lia. Qed.

(** Conditions under which the reader understands what the writer wrote. *)
Definition name_ok (n : list N) : Prop := 1 <= nlen n <= 1024 /\ (forall c t, n = c :: t -> c <> 0).
Record wf_entry (e : zentry) : Prop := {
  we_name : name_ok (e_name e);
  we_method : e_method e < two16 }.
Record wf_arch (es : list zentry) : Prop := {
  wa_entries : Forall wf_entry es;
  wa_count : nlen es < 19280;
  wa_off : sum_esize es <> sig_end;
  wa_size : nlen (archive es) + 64 <= two32 }.

Lemma sum_csize_bound es : Forall wf_entry es -> sum_csize es <= 1070 * nlen es.
Proof.
  induction 1 as [|e es H HF IH]; [reflexivity|].
  rewrite nlen_cons, sum_csize_cons. destruct H as [[Hn _] _]. unfold csize. lia.
Qed.

Lemma sum_esize_pos e es : 30 <= sum_esize (e :: es).
Proof. rewrite sum_esize_cons. unfold esize. lia. Qed.

(** ** Finding the end record *)
Lemma scan_end_skip buf k r :
  (forall i, N.of_nat r < i <= N.of_nat (r + k) ->
     exists v p, read_long buf i = ZOk (v, p) /\ (i <? p) && (v =? sig_end) = false) ->
  scan_end buf (r + k)%nat = scan_end buf r.
Proof.
  induction k as [|k IH]; intros H.
  - rewrite Nat.add_0_r. reflexivity.
  - rewrite Nat.add_succ_r. cbn [scan_end].
    destruct (H (N.of_nat (S (r + k)))) as (v & p & E & Hv); [lia|].
    rewrite E. cbn [zbind]. rewrite Hv. apply IH. intros i Hi. apply H. lia.
Qed.

Definition end_bytes (n s o : N) : list N :=
  [80; 75; 5; 6; 0; 0; 0; 0; n mod 256; n / 256 mod 256; n mod 256; n / 256 mod 256;
   s mod 256; s / 256 mod 256; s / 256 / 256 mod 256; s / 256 / 256 / 256 mod 256;
   o mod 256; o / 256 mod 256; o / 256 / 256 mod 256; o / 256 / 256 / 256 mod 256; 0; 0].

Lemma end_header_bytes es : end_header (ai_of es) = end_bytes (nlen es) (sum_csize es) (sum_esize es).
Proof. reflexivity. Qed.

(** No window of four bytes after the first inside the end record looks like its signature. *)
Lemma end_windows n s o i :
  n < 19280 -> s < 88821760 -> o <> sig_end -> o < two32 -> 1 <= i <= 17 ->
  le_val (slice i 4 (end_bytes n s o)) <> sig_end.
Proof.
  intros Hn Hs Ho Ho2 Hi H. unfold sig_end, two32 in *.
  assert (Hc : i = 1 \/ i = 2 \/ i = 3 \/ i = 4 \/ i = 5 \/ i = 6 \/ i = 7 \/ i = 8 \/ i = 9 \/ i = 10 \/ i = 11 \/
               i = 12 \/ i = 13 \/ i = 14 \/ i = 15 \/ i = 16 \/ i = 17) by lia.
  repeat (destruct Hc as [->|Hc]; [unfold slice, end_bytes in H; change (N.to_nat 4) with 4%nat in H;
    match type of H with context[skipn ?k _] => let k' := eval vm_compute in k in change k with k' in H end;
    cbn [skipn firstn le_val] in H; lia|]).
  subst i. unfold slice, end_bytes in H. change (N.to_nat 4) with 4%nat in H. change (N.to_nat 17) with 17%nat in H.
  cbn [skipn firstn le_val] in H. lia.
Qed.

Lemma scan_archive es : es <> [] -> wf_arch es ->
  scan_end (archive es) (scan_start (archive es)) = ZOk (Some (nlen (archive es) - 22)).
Proof.
  intros Hne [Hw Hc Ho Hs]. pose proof (sum_csize_bound es Hw) as Hcb.
  set (buf := archive es) in *.
  assert (Hl : nlen buf = sum_esize es + sum_csize es + 22) by apply nlen_archive.
  assert (Hpos : 30 <= sum_esize es) by (destruct es; [congruence|apply sum_esize_pos]).
  set (E := nlen buf - 22).
  assert (Hat : at_ buf E (end_header (ai_of es))).
  { exists (locals es ++ centrals 0 es), []. split.
    - unfold buf, archive. rewrite app_nil_r, <- app_assoc. reflexivity.
    - rewrite nlen_app, nlen_locals, nlen_centrals. unfold E. lia. }
  assert (Hst : scan_start buf = (N.to_nat E + 17)%nat).
  { unfold scan_start. rewrite (u32_small (nlen buf)) by u32lia.
    unfold u32. unfold two32 in *. unfold E. lia. }
  rewrite Hst, scan_end_skip.
  - destruct (N.to_nat E) as [|r] eqn:EE; [lia|]. cbn [scan_end].
    replace (N.of_nat (S r)) with E by lia.
    unfold end_header in Hat. apply at_app in Hat. destruct Hat as [Hat _].
    rewrite (read_long_at _ _ _ Hat) by u32lia. cbn [zbind].
    replace (E <? E + 4) with true by lia. reflexivity.
  - intros i Hi. assert (Hi' : E + 1 <= i <= E + 17) by lia. clear Hi.
    unfold read_long. replace (nlen buf <=? i) with false by lia.
    unfold rd. cbn [N.eqb]. replace (i + 4 <=? nlen buf) with true by lia.
    cbn [zbind]. eexists _, _. split; [reflexivity|].
    apply andb_false_iff. right. apply N.eqb_neq.
    destruct Hat as (a & c & Eb & Ea). rewrite Eb at 1.
    assert (c = []) as ->.
    { apply nlen_0. assert (HH : nlen buf = nlen (a ++ end_header (ai_of es) ++ c)) by (rewrite <- Eb; reflexivity).
      rewrite !nlen_app, nlen_end_header in HH. cbn [ai_of a_comment] in HH. rewrite nlen_nil in HH. unfold E in Ea. lia. }
    rewrite app_nil_r, end_header_bytes, slice_app_r by lia.
    apply end_windows; try u32lia.
Qed.

Lemma end_at es : at_ (archive es) (sum_esize es + sum_csize es) (end_header (ai_of es)).
Proof.
  exists (locals es ++ centrals 0 es), []. split.
  - unfold archive. rewrite app_nil_r, <- app_assoc. reflexivity.
  - rewrite nlen_app, nlen_locals, nlen_centrals. reflexivity.
Qed.

Ltac at_split H := repeat match type of H with
  | at_ _ _ (_ ++ _) => let H1 := fresh "A" in apply at_app in H; destruct H as [H1 H];
                        rewrite ?nlen_wl, ?nlen_ws in H
  end.

Lemma central_dir_pos_archive es : es <> [] -> wf_arch es -> central_dir_pos (archive es) = ZOk (sum_esize es).
Proof.
  intros Hne Hw. pose proof (scan_archive es Hne Hw) as Hs. pose proof (nlen_archive es) as Hl.
  destruct Hw as [Hwe Hc Ho Hsz].
  unfold central_dir_pos. unfold min_zip. replace (nlen (archive es) <? 22) with false by lia.
  rewrite Hs. cbn [zbind].
  pose proof (end_at es) as A. unfold end_header in A. at_split A.
  cbn [ai_of a_cdoff] in *.
  match goal with H : at_ _ ?p (wl (sum_esize es)) |- _ => replace (u32 (nlen (archive es) - 22 + 16)) with p by u32lia;
    rewrite (read_long_at _ _ _ H) by u32lia end.
  cbn [zbind]. rewrite N.mod_small by u32lia. reflexivity.
Qed.

Lemma end_pos_archive es : es <> [] -> wf_arch es -> end_pos (archive es) = ZOk (sum_esize es + sum_csize es).
Proof.
  intros Hne Hw. pose proof (scan_archive es Hne Hw) as Hs. pose proof (nlen_archive es) as Hl.
  unfold end_pos, min_zip. replace (nlen (archive es) <? 22) with false by lia.
  rewrite Hs. cbn [zbind]. f_equal. lia.
Qed.

Lemma archive_info_archive o es : es <> [] -> wf_arch es -> o_utf8 o [] = true ->
  archive_info o (archive es) = ZOk (ai_of es).
Proof.
  intros Hne Hw Hu. pose proof (nlen_archive es) as Hl.
  assert (Hpos : 30 <= sum_esize es) by (destruct es; [congruence|apply sum_esize_pos]).
  unfold archive_info. rewrite (end_pos_archive es Hne Hw). cbn [zbind].
  destruct Hw as [Hwe Hc Ho Hsz]. pose proof (sum_csize_bound es Hwe) as Hcb.
  replace (sum_esize es + sum_csize es =? 0) with false by lia.
  pose proof (end_at es) as A. unfold end_header in A. at_split A. cbn [ai_of a_disk a_cddisk a_entries a_total a_cdsize a_cdoff a_comment] in *.
  set (P := sum_esize es + sum_csize es) in *.
  rewrite (read_long_at _ _ _ A0) by u32lia. cbn [zbind]. change (negb (sig_end mod two32 =? sig_end)) with false. cbv iota.
  rewrite (read_short_at _ _ _ A1) by u32lia. cbn [zbind].
  rewrite (read_short_at _ _ _ A2) by u32lia. cbn [zbind].
  rewrite (read_short_at _ _ _ A3) by u32lia. cbn [zbind].
  rewrite (read_short_at _ _ _ A4) by u32lia. cbn [zbind].
  rewrite (read_long_at _ _ _ A5) by u32lia. cbn [zbind].
  rewrite (read_long_at _ _ _ A6) by u32lia. cbn [zbind].
  rewrite (read_short_at _ _ _ A7) by u32lia. cbn [zbind].
  change (nlen (@nil N) mod two16) with 0. cbn [zbind].
  unfold read_block, rd. cbn [N.eqb zbind]. rewrite Hu.
  rewrite !N.mod_small by u32lia. reflexivity.
Qed.

(** ** Reading one central header *)
Lemma central_reads buf p e off :
  at_ buf p (central_header 0 [] e off) -> wf_entry e -> nlen buf < two32 -> off < two32 -> nlen (e_data e) < two32 ->
  read_long buf p = ZOk (sig_central, p + 4) /\
  read_short buf (p + 4) = ZOk (20, p + 6) /\
  read_short buf (p + 6) = ZOk (20, p + 8) /\
  read_short buf (p + 8) = ZOk (0, p + 10) /\
  read_short buf (p + 10) = ZOk (e_method e, p + 12) /\
  read_short buf (p + 12) = ZOk (e_time e mod two16, p + 14) /\
  read_short buf (p + 14) = ZOk (e_date e mod two16, p + 16) /\
  read_long buf (p + 16) = ZOk (e_crc e mod two32, p + 20) /\
  read_long buf (p + 20) = ZOk (nlen (e_data e), p + 24) /\
  read_long buf (p + 24) = ZOk (e_usize e mod two32, p + 28) /\
  read_short buf (p + 28) = ZOk (nlen (e_name e), p + 30) /\
  read_short buf (p + 30) = ZOk (0, p + 32) /\
  read_short buf (p + 32) = ZOk (0, p + 34) /\
  read_short buf (p + 34) = ZOk (0, p + 36) /\
  read_short buf (p + 36) = ZOk (0, p + 38) /\
  read_long buf (p + 38) = ZOk (0, p + 42) /\
  read_long buf (p + 42) = ZOk (off, p + 46) /\
  read_name buf (p + 46) (nlen (e_name e)) = ZOk (e_name e, p + 46 + nlen (e_name e)) /\
  read_block buf (p + 46) (nlen (e_name e)) = ZOk (e_name e, p + 46 + nlen (e_name e)) /\
  p + csize e <= nlen buf.
Proof.
  intros A [[Hn Hz] Hm] Hb Ho Hd. pose proof (at_len _ _ _ A) as HL. rewrite nlen_central_header in HL.
  unfold central_header in A. at_split A.
  assert (EQ : forall q x, x = q -> forall v, at_ buf q v -> at_ buf x v) by (intros ? ? -> ? ?; assumption).
  repeat split;
  try (match goal with
  | |- read_long _ ?x = _ => 
      match goal with H : at_ buf ?q (wl ?v) |- _ =>
        rewrite (read_long_at buf x v (EQ q x ltac:(lia) _ H) Hb); apply f_equal; apply f_equal2; [first [reflexivity | rewrite N.mod_small by u32lia; reflexivity] | lia] end
  | |- read_short _ ?x = _ => 
      match goal with H : at_ buf ?q (ws ?v) |- _ =>
        rewrite (read_short_at buf x v (EQ q x ltac:(lia) _ H) Hb); apply f_equal; apply f_equal2; [first [reflexivity | rewrite N.mod_small by u32lia; reflexivity] | lia] end
  end).
  - match goal with H : at_ _ ?q (e_name e) |- _ => apply read_name_at; [apply (EQ q); [lia|exact H] | reflexivity | lia | exact Hb] end.
  - match goal with H : at_ _ ?q (e_name e) |- _ => apply read_block_at; [apply (EQ q); [lia|exact H] | reflexivity | exact Hb] end.
  - exact HL.
Qed.

(** Position of the central header of the first entry called [path]. *)
Fixpoint cpos (p : N) (es : list zentry) (path : list N) : option N :=
  match es with
  | [] => None
  | e :: es' => if beq_bytes (e_name e) path then Some p else cpos (p + csize e) es' path
  end.

Lemma find_central_ok buf path es :
  path <> [] -> nlen buf + 64 <= two32 -> Forall wf_entry es ->
  forall a p off fuel, at_ buf p (centrals off es ++ end_header a) ->
  a_comment a = [] -> nlen buf = p + sum_csize es + 22 -> off + sum_esize es < two32 ->
  (length es < fuel)%nat ->
  find_central fuel buf path p = ZOk (match cpos p es path with Some q => q | None => 0 end).
Proof.
  intros Hp Hb Hw. induction Hw as [|e es We Hw IH]; intros a p off fuel A Ha Hl Hoff Hf.
  - destruct fuel as [|fuel]; [cbn [length] in Hf; lia|].
    cbn [centrals app cpos sum_csize fold_right] in *. cbn [find_central].
    unfold end_header in A. apply at_app in A. destruct A as [A _].
    rewrite (read_long_at _ _ _ A) by u32lia. cbn [zbind].
    change (sig_end mod two32 =? sig_central) with false. cbn [negb].
    rewrite (u32_small (p + 4 + 24)) by u32lia.
    rewrite read_short_past by lia. cbn [zbind].
    rewrite read_short_past by lia. cbn [zbind].
    rewrite read_short_past by lia. cbn [zbind].
    rewrite (u32_small (p + 4 + 24 + 8)) by u32lia.
    rewrite read_long_past by lia. cbn [zbind].
    unfold read_name, rd. cbn [N.ltb N.compare N.eqb zbind].
    destruct path as [|c t]; [congruence|]. rewrite nlen_cons.
    replace (1 + nlen t =? 0) with false by lia. reflexivity.
  - destruct fuel as [|fuel]; [cbn [length] in Hf; lia|].
    cbn [centrals cpos sum_csize sum_esize fold_right] in *. rewrite <- app_assoc in A.
    apply at_app in A. destruct A as [A A']. rewrite nlen_central_header in A'.
    fold (sum_csize es) in *. fold (sum_esize es) in *.
    assert (Hes : nlen (e_data e) < two32) by (unfold esize in *; lia).
    destruct (central_reads buf p e off A We) as (R0 & R1 & R2 & R3 & R4 & R5 & R6 & R7 & R8 & R9 & R10 & R11 & R12 & R13 & R14 & R15 & R16 & R17 & R18 & R19); try u32lia.
    cbn [find_central]. rewrite R0. cbn [zbind]. rewrite N.eqb_refl. cbn [negb].
    replace (u32 (p + 4 + 24)) with (p + 28) by (unfold csize in *; u32lia).
    rewrite R10. cbn [zbind]. rewrite R11. cbn [zbind]. rewrite R12. cbn [zbind].
    replace (u32 (p + 34 + 8)) with (p + 42) by (unfold csize in *; u32lia).
    rewrite R16. cbn [zbind]. rewrite R17. cbn [zbind].
    destruct (beq_bytes (e_name e) path) eqn:B.
    + pose proof B as B'. apply beq_bytes_spec in B'. rewrite <- B', N.eqb_refl. reflexivity.
    + rewrite andb_false_r.
      replace (u32 (p + 46 + nlen (e_name e) + 0 + 0)) with (p + csize e) by (unfold csize in *; u32lia).
      apply (IH a _ (off + esize e)); try assumption; cbn [length] in Hf; lia.
Qed.

Lemma cpos_bounds es path : forall p q, cpos p es path = Some q -> p <= q.
Proof.
  induction es as [|e es IH]; intros p q; cbn [cpos]; [discriminate|].
  destruct (beq_bytes (e_name e) path).
  - intros H; injection H as <-. lia.
  - intros H. apply IH in H. unfold csize in *. lia.
Qed.

Lemma length_locals_ge es : (length es <= length (archive es))%nat.
Proof.
  assert (H : nlen es <= nlen (archive es)).
  { rewrite nlen_archive. induction es as [|e es IH]; [cbn; lia|].
    cbn [sum_esize sum_csize fold_right]. fold (sum_esize es). fold (sum_csize es). rewrite nlen_cons. unfold esize. lia. }
  unfold nlen in H. lia.
Qed.

Definition cposz es path : N := match cpos (sum_esize es) es path with Some q => q | None => 0 end.

Lemma central_header_pos_archive es path : es <> [] -> wf_arch es -> path <> [] ->
  central_header_pos (archive es) path = ZOk (cposz es path).
Proof.
  intros Hne Hw Hp. unfold central_header_pos. rewrite (central_dir_pos_archive es Hne Hw). cbn [zbind].
  assert (Hpos : 30 <= sum_esize es) by (destruct es; [congruence|apply sum_esize_pos]).
  replace (sum_esize es =? 0) with false by lia.
  assert (Hp0 : nlen path =? 0 = false).
  { apply N.eqb_neq. intros H. apply nlen_0 in H. congruence. }
  rewrite Hp0. cbn [orb]. destruct Hw as [Hwe Hc Ho Hsz]. pose proof (nlen_archive es) as Hl.
  apply (find_central_ok _ path es Hp Hsz Hwe (ai_of es) _ 0).
  - exists (locals es), []. split; [unfold archive; rewrite app_nil_r; reflexivity | apply nlen_locals].
  - reflexivity.
  - lia.
  - u32lia.
  - pose proof (length_locals_ge es). lia.
Qed.

(** Where an entry's two headers are, given the split of the entry list around it. *)
Lemma central_at es1 e es2 :
  at_ (archive (es1 ++ e :: es2)) (sum_esize (es1 ++ e :: es2) + sum_csize es1) (central_header 0 [] e (sum_esize es1)).
Proof.
  set (L := es1 ++ e :: es2).
  exists (locals L ++ centrals 0 es1), (centrals (sum_esize es1 + esize e) es2 ++ end_header (ai_of L)). split.
  - unfold archive. rewrite <- (app_assoc (locals L)). f_equal. unfold L at 1.
    rewrite centrals_app. cbn [centrals]. rewrite N.add_0_l, <- !app_assoc. reflexivity.
  - rewrite nlen_app, nlen_locals, nlen_centrals. reflexivity.
Qed.

Lemma local_at es1 e es2 : at_ (archive (es1 ++ e :: es2)) (sum_esize es1) (local_header e ++ e_data e).
Proof.
  set (L := es1 ++ e :: es2).
  exists (locals es1), (locals es2 ++ centrals 0 L ++ end_header (ai_of L)). split.
  - unfold archive. assert (EL : locals L = locals es1 ++ local_bytes e ++ locals es2).
    { unfold L. rewrite locals_app. reflexivity. }
    rewrite EL. rewrite <- !app_assoc. unfold local_bytes. rewrite <- !app_assoc. reflexivity.
  - apply nlen_locals.
Qed.

Lemma cpos_split es1 e es2 path : forall p,
  ~ In path (map e_name es1) -> e_name e = path -> cpos p (es1 ++ e :: es2) path = Some (p + sum_csize es1).
Proof.
  induction es1 as [|x es1 IH]; intros p Hni He; cbn [app cpos sum_csize fold_right map] in *.
  - rewrite (proj2 (beq_bytes_spec _ _) He). f_equal. lia.
  - destruct (beq_bytes (e_name x) path) eqn:B.
    + apply beq_bytes_spec in B. exfalso. apply Hni. left. exact B.
    + rewrite IH; [|intros H; apply Hni; right; exact H|exact He]. f_equal. fold (sum_csize es1). lia.
Qed.

Lemma cpos_none es path : forall p, ~ In path (map e_name es) -> cpos p es path = None.
Proof.
  induction es as [|x es IH]; intros p Hni; cbn [cpos map] in *; [reflexivity|].
  destruct (beq_bytes (e_name x) path) eqn:B.
  - apply beq_bytes_spec in B. exfalso. apply Hni. left. exact B.
  - apply IH. intros H. apply Hni. right. exact H.
Qed.

(** First occurrence. *)
Lemma in_first es path : In path (map e_name es) ->
  exists es1 e es2, es = es1 ++ e :: es2 /\ ~ In path (map e_name es1) /\ e_name e = path.
Proof.
  induction es as [|x es IH]; intros H; [destruct H|].
  destruct (beq_bytes (e_name x) path) eqn:B.
  - apply beq_bytes_spec in B. exists [], x, es. repeat split; auto.
  - cbn [map] in H. destruct H as [H|H]; [exfalso; rewrite (proj2 (beq_bytes_spec _ _) H) in B; discriminate|].
    destruct (IH H) as (es1 & e & es2 & -> & Hn & He). exists (x :: es1), e, es2. repeat split; auto.
    cbn [map]. intros [Hx|Hx]; [rewrite (proj2 (beq_bytes_spec _ _) Hx) in B; discriminate|]. contradiction.
Qed.

Lemma wf_arch_in es e : wf_arch es -> In e es -> wf_entry e.
Proof. intros [Hw _ _ _] Hi. rewrite Forall_forall in Hw. auto. Qed.

Lemma wf_name_ne e : wf_entry e -> e_name e <> [].
Proof. intros [[[H _] _] _] E. rewrite E in H. rewrite nlen_nil in H. lia. Qed.

Lemma sums_split es1 e es2 :
  sum_esize (es1 ++ e :: es2) = sum_esize es1 + esize e + sum_esize es2 /\
  sum_csize (es1 ++ e :: es2) = sum_csize es1 + csize e + sum_csize es2.
Proof.
  rewrite sum_esize_app, sum_csize_app. cbn [sum_esize sum_csize fold_right].
  fold (sum_esize es2). fold (sum_csize es2). lia.
Qed.

(** ** GetNextFile *)
Lemma next_first e es : wf_arch (e :: es) -> next_file (archive (e :: es)) [] = ZOk (Some (e_name e)).
Proof.
  intros Hw. assert (Hne : e :: es <> []) by discriminate.
  pose proof (wf_arch_in _ e Hw (or_introl eq_refl)) as We.
  pose proof (central_at [] e es) as A. cbn [app sum_csize sum_esize fold_right] in A. rewrite N.add_0_r in A.
  fold (sum_esize es) in A.
  change (esize e + sum_esize es) with (sum_esize (e :: es)) in A.
  set (P := sum_esize (e :: es)) in *.
  pose proof (nlen_archive (e :: es)) as Hl. fold P in Hl.
  assert (HP : esize e <= P) by (unfold P; cbn [sum_esize fold_right]; lia).
  unfold next_file. rewrite (central_dir_pos_archive _ Hne Hw). cbn [zbind]. fold P.
  destruct Hw as [Hwe Hc Ho Hsz].
  replace (P =? 0) with false by (unfold esize in HP; lia).
  change (nlen (@nil N) =? 0) with true. cbv iota. cbn [zbind].
  destruct (central_reads _ P e 0 A We) as (R0 & R1 & R2 & R3 & R4 & R5 & R6 & R7 & R8 & R9 & R10 & R11 & R12 & R13 & R14 & R15 & R16 & R17 & R18 & R19); try (unfold esize in *; u32lia).
  rewrite R0. cbn [zbind]. rewrite N.eqb_refl. cbn [negb].
  replace (u32 (P + 4 + 24)) with (P + 28) by (unfold csize in *; u32lia).
  rewrite R10. cbn [zbind].
  replace (u32 (P + 30 + 16)) with (P + 46) by (unfold csize in *; u32lia).
  rewrite R17. cbn [zbind].
  destruct We as [[Hn Hz] _]. destruct (e_name e) as [|c t] eqn:En; [rewrite nlen_nil in Hn; lia|].
  specialize (Hz c t eq_refl). replace (c =? 0) with false by lia. reflexivity.
Qed.

Lemma next_skip es1 e es2 : wf_arch (es1 ++ e :: es2) -> ~ In (e_name e) (map e_name es1) ->
  next_file (archive (es1 ++ e :: es2)) (e_name e) =
  match es2 with [] => ZOk None | e2 :: _ => ZOk (Some (e_name e2)) end.
Proof.
  intros Hw Hni. set (L := es1 ++ e :: es2) in *.
  assert (Hne : L <> []) by (unfold L; destruct es1; discriminate).
  assert (We : wf_entry e) by (apply (wf_arch_in L); [exact Hw|unfold L; apply in_or_app; right; left; reflexivity]).
  pose proof (wf_name_ne _ We) as Hnn.
  pose proof (central_at es1 e es2) as A. fold L in A.
  destruct (sums_split es1 e es2) as [SE SC]. fold L in SE, SC.
  pose proof (nlen_archive L) as Hl.
  unfold next_file. rewrite (central_dir_pos_archive _ Hne Hw). cbn [zbind].
  replace (sum_esize L =? 0) with false by (unfold esize in *; lia).
  assert (Hp0 : nlen (e_name e) =? 0 = false) by (apply N.eqb_neq; intros H; apply nlen_0 in H; congruence).
  rewrite Hp0. rewrite (central_header_pos_archive _ _ Hne Hw Hnn).
  pose proof (cpos_split es1 e es2 (e_name e) (sum_esize L) Hni eq_refl) as EC. fold L in EC.
  unfold cposz. rewrite EC. cbn [zbind].
  set (P := sum_esize L + sum_csize es1) in *.
  pose proof Hw as [Hwe Hc Ho Hsz].
  destruct (central_reads _ P e _ A We) as (R0 & R1 & R2 & R3 & R4 & R5 & R6 & R7 & R8 & R9 & R10 & R11 & R12 & R13 & R14 & R15 & R16 & R17 & R18 & R19); try (unfold esize in *; u32lia).
  replace (u32 (P + 28)) with (P + 28) by (unfold csize in *; u32lia).
  rewrite R10. cbn [zbind]. rewrite R11. cbn [zbind]. rewrite R12. cbn [zbind].
  replace (u32 (P + 34 + 12 + nlen (e_name e) + 0 + 0)) with (P + csize e) by (unfold csize in *; u32lia).
  destruct es2 as [|e2 es2].
  - pose proof (end_at L) as B. unfold end_header in B. apply at_app in B. destruct B as [B _].
    cbn [sum_csize fold_right] in SC.
    replace (sum_esize L + sum_csize L) with (P + csize e) in B by (unfold P; lia).
    rewrite (read_long_at _ _ _ B) by u32lia. reflexivity.
  - pose proof (central_at (es1 ++ [e]) e2 es2) as B. rewrite <- app_assoc in B. cbn [app] in B. fold L in B.
    rewrite sum_csize_app in B. cbn [sum_csize fold_right] in B.
    replace (sum_esize L + (sum_csize es1 + (csize e + 0))) with (P + csize e) in B by (unfold P; lia).
    assert (We2 : wf_entry e2) by (apply (wf_arch_in L); [exact Hw|unfold L; apply in_or_app; right; right; left; reflexivity]).
    cbn [sum_esize sum_csize fold_right] in SE, SC. fold (sum_esize es2) in SE. fold (sum_csize es2) in SC.
    destruct (central_reads _ (P + csize e) e2 _ B We2) as (Q0 & _ & _ & _ & _ & _ & _ & _ & _ & _ & Q10 & _ & _ & _ & _ & _ & _ & Q17 & _ & Q19); try (rewrite ?sum_esize_app; cbn [sum_esize fold_right]; unfold esize in *; u32lia).
    rewrite Q0. cbn [zbind]. rewrite N.eqb_refl. cbn [negb].
    replace (u32 (P + csize e + 4 + 24)) with (P + csize e + 28) by (unfold csize in *; u32lia).
    rewrite Q10. cbn [zbind].
    replace (u32 (P + csize e + 30 + 16)) with (P + csize e + 46) by (unfold csize in *; u32lia).
    rewrite Q17. cbn [zbind].
    destruct We2 as [[Hn Hz] _]. destruct (e_name e2) as [|c t] eqn:En; [rewrite nlen_nil in Hn; lia|].
    specialize (Hz c t eq_refl). replace (c =? 0) with false by lia. reflexivity.
Qed.

(** ** GetFileInfo and GetFile *)
Definition info_of (e : zentry) (off : N) : finfo :=
  {| f_version := 20; f_flags := 0; f_method := e_method e; f_time := e_time e mod two16; f_date := e_date e mod two16;
     f_crc := e_crc e mod two32; f_csize := nlen (e_data e); f_usize := e_usize e mod two32; f_iattr := 0; f_eattr := 0;
     f_offset := off; f_name := e_name e; f_comment := [] |}.

Lemma file_info_archive o es1 e es2 : wf_arch (es1 ++ e :: es2) -> ~ In (e_name e) (map e_name es1) ->
  o_utf8 o [] = true -> o_utf8 o (e_name e) = true ->
  file_info o (archive (es1 ++ e :: es2)) (e_name e) = ZOk (Some (info_of e (sum_esize es1))).
Proof.
  intros Hw Hni Hu0 Hu. set (L := es1 ++ e :: es2) in *.
  assert (Hne : L <> []) by (unfold L; destruct es1; discriminate).
  assert (We : wf_entry e) by (apply (wf_arch_in L); [exact Hw|unfold L; apply in_or_app; right; left; reflexivity]).
  pose proof (wf_name_ne _ We) as Hnn.
  pose proof (central_at es1 e es2) as A. fold L in A.
  destruct (sums_split es1 e es2) as [SE SC]. fold L in SE, SC.
  pose proof (nlen_archive L) as Hl.
  unfold file_info. rewrite (central_header_pos_archive _ _ Hne Hw Hnn).
  pose proof (cpos_split es1 e es2 (e_name e) (sum_esize L) Hni eq_refl) as EC. fold L in EC.
  unfold cposz. rewrite EC. cbn [zbind].
  set (P := sum_esize L + sum_csize es1) in *.
  pose proof Hw as [Hwe Hc Ho Hsz].
  destruct (central_reads _ P e _ A We) as (R0 & R1 & R2 & R3 & R4 & R5 & R6 & R7 & R8 & R9 & R10 & R11 & R12 & R13 & R14 & R15 & R16 & R17 & R18 & R19); try (unfold esize in *; u32lia).
  rewrite R0. cbn [zbind]. rewrite N.eqb_refl. cbn [negb].
  rewrite R1; cbn [zbind]. rewrite R2; cbn [zbind]. rewrite R3; cbn [zbind]. rewrite R4; cbn [zbind].
  rewrite R5; cbn [zbind]. rewrite R6; cbn [zbind]. rewrite R7; cbn [zbind]. rewrite R8; cbn [zbind].
  rewrite R9; cbn [zbind]. rewrite R10; cbn [zbind]. rewrite R11; cbn [zbind]. rewrite R12; cbn [zbind].
  rewrite R13; cbn [zbind]. rewrite R14; cbn [zbind]. rewrite R15; cbn [zbind]. rewrite R16; cbn [zbind].
  rewrite R18; cbn [zbind]. unfold read_block, rd. cbn [N.eqb zbind]. rewrite Hu, Hu0. reflexivity.
Qed.

Lemma file_info_missing o es path : es <> [] -> wf_arch es -> path <> [] -> ~ In path (map e_name es) ->
  file_info o (archive es) path = ZOk None.
Proof.
  intros Hne Hw Hp Hni. unfold file_info. rewrite (central_header_pos_archive _ _ Hne Hw Hp).
  unfold cposz. rewrite (cpos_none _ _ _ Hni). cbn [zbind].
  destruct es as [|e es]; [congruence|].
  pose proof (local_at [] e es) as A. cbn [app sum_esize fold_right] in A. unfold local_header in A. rewrite <- !app_assoc in A.
  apply at_app in A. destruct A as [A _]. destruct Hw as [Hwe Hc Ho Hsz].
  rewrite (read_long_at _ _ _ A) by u32lia. reflexivity.
Qed.

Definition unpack (o : oracle) (method : N) (d : list N) : option (list N) :=
  if method =? 12 then None else if method =? 0 then Some d else o_inflate o d.

Lemma get_file_archive o es1 e es2 : wf_arch (es1 ++ e :: es2) -> ~ In (e_name e) (map e_name es1) ->
  o_utf8 o [] = true -> o_utf8 o (e_name e) = true ->
  get_file o (archive (es1 ++ e :: es2)) (e_name e) = ZOk (unpack o (e_method e) (e_data e)).
Proof.
  intros Hw Hni Hu0 Hu. unfold get_file. rewrite (file_info_archive o es1 e es2 Hw Hni Hu0 Hu). cbn [zbind].
  set (L := es1 ++ e :: es2) in *.
  assert (We : wf_entry e) by (apply (wf_arch_in L); [exact Hw|unfold L; apply in_or_app; right; left; reflexivity]).
  destruct We as [[Hn Hz] _].
  destruct (sums_split es1 e es2) as [SE SC]. fold L in SE, SC.
  pose proof (nlen_archive L) as Hl. destruct Hw as [Hwe Hc Ho Hsz].
  pose proof (local_at es1 e es2) as A. fold L in A. unfold local_header in A. rewrite <- !app_assoc in A. at_split A.
  cbn [info_of f_offset f_csize f_method].
  match goal with H : at_ _ ?q (ws (nlen (e_name e))) |- _ =>
    replace (u32 (sum_esize es1 + 26)) with q by (unfold esize in *; u32lia); rewrite (read_short_at _ _ _ H) by u32lia end.
  cbn [zbind].
  match goal with H : at_ _ ?q (ws 0), H2 : at_ _ (?q + 2) (e_name e) |- _ => rewrite (read_short_at _ q 0 H) by u32lia end.
  cbn [zbind].
  rewrite (N.mod_small (nlen (e_name e))) by u32lia. change (0 mod two16) with 0.
  match type of A with at_ _ ?q _ => match goal with |- context[read_block _ ?x _] =>
    replace x with q by (unfold esize in *; u32lia); rewrite (read_block_at _ _ _ _ A) by (reflexivity || u32lia) end end.
  cbn [zbind]. unfold unpack. destruct (e_method e =? 12); [reflexivity|]. destruct (e_method e =? 0); reflexivity.
Qed.

(** ** AddFile *)
Definition entry_of (o : oracle) (compress : bool) (clock : N * N) (path data : list N) : zentry :=
  {| e_name := path; e_method := fst (pack o compress data); e_time := u16 (snd clock); e_date := u16 (fst clock);
     e_crc := o_crc o data; e_usize := u32 (nlen data); e_data := snd (pack o compress data) |}.

Lemma cposz_none es path : ~ In path (map e_name es) -> cposz es path = 0.
Proof. intros H. unfold cposz. rewrite cpos_none by exact H. reflexivity. Qed.

Lemma cposz_some es path : es <> [] -> In path (map e_name es) -> cposz es path <> 0.
Proof.
  intros Hne H. destruct (in_first _ _ H) as (es1 & e & es2 & -> & Hn & He).
  unfold cposz. rewrite (cpos_split es1 e es2 path _ Hn He).
  destruct (sums_split es1 e es2) as [SE _]. unfold esize in SE. lia.
Qed.

Lemma locals_at0 es : at_ (archive es) 0 (locals es).
Proof. exists [], (centrals 0 es ++ end_header (ai_of es)). split; reflexivity. Qed.

Lemma centrals_at es : at_ (archive es) (sum_esize es) (centrals 0 es).
Proof. exists (locals es), (end_header (ai_of es)). split; [reflexivity|apply nlen_locals]. Qed.

Lemma nlen_map_norm p : nlen (norm_path p) = nlen p.
Proof. unfold norm_path, nlen. rewrite map_length. reflexivity. Qed.

Lemma add_exists o compress clock es path data :
  wf_arch es -> In (norm_path path) (map e_name es) ->
  add_file o compress clock (arch es) path data = ZOk (AddExists, arch es).
Proof.
  intros Hw Hi. destruct es as [|e0 es0]; [destruct Hi|]. set (es := e0 :: es0) in *.
  change (arch es) with (archive es).
  assert (Hne : es <> []) by discriminate.
  assert (Hp : norm_path path <> []).
  { intros E. rewrite E in Hi. apply in_map_iff in Hi. destruct Hi as (x & Ex & Hx).
    apply (wf_name_ne x); [eapply wf_arch_in; eauto | exact Ex]. }
  unfold add_file. rewrite (central_header_pos_archive _ _ Hne Hw Hp). cbn [zbind].
  pose proof (cposz_some _ _ Hne Hi) as H0.
  replace (cposz es (norm_path path) =? 0) with false by lia. reflexivity.
Qed.

Definition add_code (o : oracle) (compress : bool) (data : list N) : addcode :=
  if nlen (snd (pack o compress data)) =? 0 then AddFailed else AddOk.

Lemma ai_eq n n' m m' s s' p p' c :
  n = n' -> m = m' -> s = s' -> p = p' ->
  {| a_disk := 0; a_cddisk := 0; a_entries := n; a_total := m; a_cdsize := s; a_cdoff := p; a_start := 0; a_comment := c |} =
  {| a_disk := 0; a_cddisk := 0; a_entries := n'; a_total := m'; a_cdsize := s'; a_cdoff := p'; a_start := 0; a_comment := c |}.
Proof. intros -> -> -> ->. reflexivity. Qed.

Lemma add_new o compress clock es path data :
  es = [] \/ wf_arch es -> norm_path path <> [] -> ~ In (norm_path path) (map e_name es) -> o_utf8 o [] = true ->
  nlen (archive (es ++ [entry_of o compress clock (norm_path path) data])) < two32 ->
  nlen es + 1 < two16 ->
  add_file o compress clock (arch es) path data =
  ZOk (add_code o compress data, arch (es ++ [entry_of o compress clock (norm_path path) data])).
Proof.
  intros Hw Hp Hni Hu Hsz Hcnt. set (e := entry_of o compress clock (norm_path path) data) in *.
  rewrite nlen_archive in Hsz. destruct (sums_split es e []) as [SE SC]. cbn [sum_esize sum_csize fold_right] in SE, SC.
  unfold add_file. destruct es as [|e0 es0].
  - cbn [arch]. unfold central_header_pos, central_dir_pos, end_pos, min_zip.
    change (nlen (@nil N) <? 22) with true. cbv iota. cbn [zbind].
    change ((0 =? 0) || (nlen (norm_path path) =? 0)) with true. cbv iota. cbn [zbind N.eqb negb].
    destruct (pack o compress data) as [m d] eqn:EP. rewrite nlen_nil. cbn [N.eqb negb andb].
    unfold add_code. rewrite EP. cbn [snd app arch].
    unfold archive, locals, local_bytes. cbn [map concat app centrals]. rewrite !app_nil_r.
    unfold e, entry_of in *. rewrite EP in *. cbn [fst snd app] in *.
    rewrite <- !app_assoc.
    unfold ai_of. unfold sum_csize, sum_esize in *. cbn [fold_right app] in *.
    unfold csize, esize in *. cbn [e_name e_data] in *. rewrite nlen_map_norm in *.
    match goal with |- ZOk (_, _ ++ _ ++ _ ++ end_header ?x) = ZOk (_, _ ++ _ ++ _ ++ end_header ?y) =>
      replace x with y; [reflexivity|] end.
    apply ai_eq; rewrite ?nlen_cons, ?nlen_nil; u32lia.
  - set (es := e0 :: es0) in *. destruct Hw as [Hw|Hw]; [discriminate|].
    assert (Hne : es <> []) by discriminate. change (arch es) with (archive es).
    rewrite (central_header_pos_archive _ _ Hne Hw Hp), (cposz_none _ _ Hni). cbn [zbind N.eqb negb].
    rewrite (central_dir_pos_archive _ Hne Hw). cbn [zbind].
    rewrite (end_pos_archive _ Hne Hw). cbn [zbind].
    destruct (pack o compress data) as [m d] eqn:EP.
    pose proof (sum_esize_pos e0 es0) as Hpos. fold es in Hpos.
    pose proof (nlen_archive es) as Hl.
    replace (nlen (archive es) =? 0) with false by lia.
    replace (sum_esize es =? 0) with false by lia.
    replace (sum_esize es + sum_csize es =? 0) with false by lia. cbn [negb andb].
    pose proof Hw as [Hwe Hc Ho Hs].
    rewrite (read_block_at _ 0 (locals es)); [|apply locals_at0|rewrite nlen_locals; reflexivity|u32lia]. cbn [zbind].
    rewrite (read_block_at _ (sum_esize es) (centrals 0 es)); [|apply centrals_at|rewrite nlen_centrals; u32lia|u32lia]. cbn [zbind].
    rewrite (archive_info_archive o es Hne Hw Hu). cbn [zbind].
    unfold add_code. rewrite EP. cbn [snd].
    assert (Earch : arch (es ++ [e]) = archive (es ++ [e])) by reflexivity. rewrite Earch.
    apply f_equal. apply f_equal2; [reflexivity|]. unfold archive. rewrite locals_app, centrals_app. cbn [centrals].
    unfold locals at 3. cbn [map concat]. rewrite !app_nil_r. unfold local_bytes at 1.
    unfold e, entry_of in *. rewrite EP in *. cbn [fst snd e_data] in *. rewrite <- !app_assoc.
    cbn [ai_of a_start a_comment a_disk a_cddisk a_entries a_total a_cdsize a_cdoff].
    rewrite N.add_0_l.
    unfold ai_of. rewrite SE, SC. unfold csize, esize in *. cbn [e_name e_data] in *. rewrite nlen_app.
    match goal with |- _ ++ _ ++ _ ++ _ ++ _ ++ end_header ?x = _ ++ _ ++ _ ++ _ ++ _ ++ end_header ?y =>
      replace x with y; [reflexivity|] end.
    rewrite nlen_map_norm in *. apply ai_eq; rewrite ?nlen_cons, ?nlen_nil; u32lia.
Qed.
