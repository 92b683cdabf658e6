(** Properties C15-C19 and C58-C60: the archive container. *)
From Coq Require Import List NArith ZArith Lia Bool.
From Coq Require Import ZifyN ZifyNat ZifyBool.
From Verif Require Import Bytes BytesProofs ZipModel ZipProofs ZipSpec ZipProofs2 ZipProofs3.
Import ListNotations.
Open Scope N_scope.

(** The contract assumed of the external parts: the empty text is valid, inflating what was
    deflated gives the data back. *)
Record contract (o : oracle) : Prop := {
  ct_utf8 : o_utf8 o [] = true;
  ct_inflate : forall d, o_inflate o (o_deflate o d) = Some d }.

Definition stored_form (o : oracle) (compress : bool) (d : list N) : list N := snd (pack o compress d).

(** C15, C16. For every sequence of additions to a new archive whose intermediate archives
    stay inside the limits of the format ([reachable_fit]): every call returns the code of
    the abstract archive, every file present is read back with exactly the content added
    first under its name, every other name is reported as absent, and walking the archive
    visits the names in insertion order and stops. *)
Theorem C15_archive_round_trip : forall o compress ops,
  contract o -> reachable_fit (stored_form o compress) [] ops ->
  let fs := snd (spec_run (stored_form o compress) [] ops) in
  exists buf, run_adds o compress ops [] = ZOk (fst (spec_run (stored_form o compress) [] ops), buf) /\
    (forall n d, lookup n fs = Some d -> o_utf8 o n = true -> get_file o buf n = ZOk (Some d)) /\
    (forall n, n <> [] -> lookup n fs = None -> file_info o buf n = ZOk None).
Proof.
  intros o compress ops [Hu Hi] Hr fs.
  destruct (run_refines o compress Hu ops [] [] (Forall2_nil _) (or_introl eq_refl) Hr) as (es & HR & E).
  exists (arch es). split; [exact E|].
  assert (Hfit : fs = [] \/ fits (stored_form o compress) fs).
  { apply fits_run; [left; reflexivity|exact Hr]. }
  split.
  - intros n d Hl Hun. destruct Hfit as [Hfit|Hfit]; [rewrite Hfit in Hl; discriminate|].
    destruct es as [|e es]; [apply Forall2_len in HR; change (0%nat = length fs) in HR; destruct fs; discriminate|].
    apply (get_refines o compress Hu Hi (e :: es) fs n d HR Hfit Hl Hun).
  - intros n Hn Hl. apply (info_missing o compress es fs n HR Hfit Hn Hl).
Qed.
Print Assumptions C15_archive_round_trip.

Theorem C16_archive_listing : forall o compress ops,
  contract o -> reachable_fit (stored_form o compress) [] ops ->
  let fs := snd (spec_run (stored_form o compress) [] ops) in
  exists codes buf, run_adds o compress ops [] = ZOk (codes, buf) /\
    walk (S (length fs)) buf [] = ZOk (map fst fs) /\ NoDup (map fst fs).
Proof.
  intros o compress ops [Hu Hi] Hr fs.
  destruct (run_refines o compress Hu ops [] [] (Forall2_nil _) (or_introl eq_refl) Hr) as (es & HR & E).
  change (Forall2 (rep1 o compress) es fs) in HR.
  assert (HN : NoDup (map fst fs)) by (apply spec_nodup; constructor).
  eexists _, (arch es). split; [exact E|]. split; [|exact HN].
  rewrite <- (rep_names o compress es fs HR) in *.
  replace (length fs) with (length es) by (symmetry; eapply Forall2_len in HR; symmetry; exact HR).
  destruct (fits_run (stored_form o compress) ops [] (or_introl eq_refl) Hr) as [H0|Hf].
  - fold fs in H0. rewrite H0 in HR. inversion HR; subst. reflexivity.
  - fold fs in Hf. apply walk_all; [eapply rep_wf; eassumption|exact HN].
Qed.
Print Assumptions C16_archive_listing.

(** C17. After such a run: adding under a present name (backslash = slash) is refused and the
    bytes do not change; adding under a new name leaves what is read for the old names. *)
Theorem C17_no_silent_overwrite : forall o compress ops clock path data,
  contract o -> reachable_fit (stored_form o compress) [] ops ->
  let fs := snd (spec_run (stored_form o compress) [] ops) in
  let n := map (fun c => if c =? 92 then 47 else c) path in
  exists codes buf, run_adds o compress ops [] = ZOk (codes, buf) /\
    (mem n fs = true -> add_file o compress clock buf path data = ZOk (AddExists, buf)) /\
    (mem n fs = false -> fits (stored_form o compress) (fs ++ [(n, data)]) ->
       exists code buf', add_file o compress clock buf path data = ZOk (code, buf') /\
         forall m d, lookup m fs = Some d -> o_utf8 o m = true -> get_file o buf' m = ZOk (Some d)).
Proof.
  intros o compress ops clock path data [Hu Hi] Hr fs n.
  destruct (run_refines o compress Hu ops [] [] (Forall2_nil _) (or_introl eq_refl) Hr) as (es & HR & E).
  change (Forall2 (rep1 o compress) es fs) in HR.
  pose proof (fits_run (stored_form o compress) ops [] (or_introl eq_refl) Hr) as Hf. fold fs in Hf.
  eexists _, (arch es). split; [exact E|].
  assert (HA : (mem (norm_path path) fs = false -> fits (stored_form o compress) (fs ++ [(norm_path path, data)])) ->
    let '(code, fs') := spec_add (stored_form o compress) fs path data in
    exists es', Forall2 (rep1 o compress) es' fs' /\ add_file o compress clock (arch es) path data = ZOk (code, arch es')).
  { intros H. apply (add_refines o compress Hu es fs clock path data HR Hf H). }
  unfold spec_add in HA. fold n in HA. change (norm_path path) with n in HA. split.
  - intros M. rewrite M in HA.
    apply mem_spec in M. rewrite <- (rep_names _ _ _ _ HR) in M.
    destruct Hf as [Hf|Hf]; [rewrite Hf in HR; inversion HR; subst; destruct M|].
    apply add_exists; [eapply rep_wf; eassumption|exact M].
  - intros M Hfit. rewrite M in HA. destruct (HA (fun _ => Hfit)) as (es' & HR' & E').
    eexists _, (arch es'). split; [exact E'|]. intros m d Hl Hum.
    destruct es' as [|e0 es'].
    { inversion HR' as [H0|]. destruct fs; discriminate. }
    apply (get_refines o compress Hu Hi (e0 :: es') _ m d HR' Hfit); [|exact Hum].
    clear - Hl. induction fs as [|[k c] fs IH]; cbn [lookup app] in *; [discriminate|].
    destruct (beq_bytes k m); [exact Hl|apply IH; exact Hl].
Qed.
Print Assumptions C17_no_silent_overwrite.

(** A sufficient, size-only condition for [reachable_fit]: names of 1..1024 bytes not
    starting with NUL, fewer than 19280 additions, and everything added taking less than
    101010256 bytes (96 MiB) with its headers. *)
Definition op_size (packed : list N -> list N) (op : addop) : N :=
  let '(_, p, d) := op in 76 + 2 * nlen p + nlen (packed d).
Theorem C15_small_archives_fit : forall packed ops,
  Forall (fun op : addop => let '(_, p, _) := op in 1 <= nlen p <= 1024 /\ match p with c :: _ => c <> 0 | [] => False end) ops ->
  nlen ops < 19280 -> fold_right (fun op s => op_size packed op + s) 22 ops < 101010256 ->
  reachable_fit packed [] ops.
Proof.
  intros packed ops Hn Hc Hs.
  assert (G : forall f, Forall (fun x => 1 <= nlen (fst x) <= 1024 /\ match fst x with c :: _ => c <> 0 | [] => False end) f ->
    nlen f + nlen ops < 19280 ->
    area packed f + directory f + fold_right (fun op s => op_size packed op + s) 22 ops < 101010256 ->
    reachable_fit packed f ops).
  { clear Hc Hs. induction Hn as [|[[c p] d] ops Hp Hn IH]; intros f Hf Hc Hs; [exact I|].
    cbn [reachable_fit]. rewrite nlen_cons in Hc. cbn [fold_right op_size] in Hs.
    set (f' := snd (spec_add packed f p d)).
    assert (P : Forall (fun x => 1 <= nlen (fst x) <= 1024 /\ match fst x with c :: _ => c <> 0 | [] => False end) f' /\
      nlen f' <= nlen f + 1 /\ area packed f' + directory f' <= area packed f + directory f + (76 + 2 * nlen p + nlen (packed d))).
    { unfold f', spec_add. destruct (mem _ f); cbn [snd]; [repeat split; try assumption; lia|].
      set (n := map (fun c0 => if c0 =? 92 then 47 else c0) p).
      assert (Ln : nlen n = nlen p) by (unfold n, nlen; rewrite map_length; reflexivity).
      repeat split.
      - apply Forall_app. split; [exact Hf|]. constructor; [|constructor]. cbn [fst]. rewrite Ln. destruct Hp as [Hp1 Hp2].
        split; [exact Hp1|]. unfold n. destruct p as [|x p]; [exact Hp2|]. cbn [map]. destruct (x =? 92); [discriminate|exact Hp2].
      - rewrite nlen_app, nlen_cons, nlen_nil. lia.
      - assert (EA : forall g, area packed (g ++ [(n, d)]) = area packed g + (30 + nlen n + nlen (packed d))).
        { induction g as [|y g IHg]; [unfold area; cbn; lia|]. cbn [app]. unfold area in *. cbn [fold_right]. rewrite IHg. lia. }
        assert (ED : forall g, directory (g ++ [(n, d)]) = directory g + (46 + nlen n)).
        { induction g as [|y g IHg]; [unfold directory; cbn; lia|]. cbn [app]. unfold directory in *. cbn [fold_right]. rewrite IHg. lia. }
        rewrite EA, ED. lia. }
    destruct P as (P1 & P2 & P3). split.
    - split; [exact P1|lia| |].
      + assert (22 <= fold_right (fun op s => op_size packed op + s) 22 ops).
        { clear. induction ops as [|a ops IH]; cbn [fold_right]; lia. }
        lia.
      + assert (22 <= fold_right (fun op s => op_size packed op + s) 22 ops).
        { clear. induction ops as [|a ops IH]; cbn [fold_right]; lia. }
        lia.
    - apply IH; [exact P1|lia|lia]. }
  apply G; [constructor|rewrite nlen_nil; lia|exact Hs].
Qed.
Print Assumptions C15_small_archives_fit.

(** A concrete oracle (no compression) and a concrete run meet the hypotheses. *)
Definition plain : oracle := {| o_deflate := fun d => d; o_inflate := Some; o_crc := fun _ => 0; o_utf8 := fun _ => true |}.
Definition demo_ops : list addop :=
  [((0,0), [97], [1;2;3]); ((0,0), [98;92;99], []); ((0,0), [97], [9]); ((0,0), [100], [80;75;5;6])].
Example C15_hyps : contract plain /\ reachable_fit (stored_form plain true) [] demo_ops /\
  spec_run (stored_form plain true) [] demo_ops =
    ([AddOk; AddFailed; AddExists; AddOk], [([97], [1;2;3]); ([98;47;99], []); ([100], [80;75;5;6])]).
Proof.
  split; [split; reflexivity|]. split; [|reflexivity].
  apply C15_small_archives_fit; [|reflexivity|reflexivity].
  repeat constructor; try (cbn; lia); cbn; discriminate.
Qed.

(** C15/C17 without the offset condition are false: one file whose size puts the directory at
    offset 101010256 makes the whole archive unreadable, and the next addition silently
    replaces the archive by one that holds only the new file. *)
Theorem C17_archive_lost_at_blind_offset : forall o compress clock1 clock2 p1 d1 p2 d2,
  contract o -> name_ok (norm_path p1) -> name_ok (norm_path p2) ->
  30 + nlen p1 + nlen (stored_form o compress d1) = 101010256 -> 30 + nlen p2 + nlen (stored_form o compress d2) < 101010256 ->
  exists buf buf',
    add_file o compress clock1 [] p1 d1 = ZOk (AddOk, buf) /\
    next_file buf [] = ZOk None /\
    add_file o compress clock2 buf p2 d2 = ZOk (add_code o compress d2, buf') /\
    walk 2 buf' [] = ZOk [norm_path p2].
Proof.
  intros o compress clock1 clock2 p1 d1 p2 d2 [Hu Hi] [Hl1 Hz1] [Hl2 Hz2] Hs Hs2.
  set (e1 := entry_of o compress clock1 (norm_path p1) d1). set (e2 := entry_of o compress clock2 (norm_path p2) d2).
  assert (N1 : norm_path p1 <> []) by (intros E; rewrite E, nlen_nil in Hl1; lia).
  assert (N2 : norm_path p2 <> []) by (intros E; rewrite E, nlen_nil in Hl2; lia).
  assert (S1 : sum_esize [e1] = sig_end).
  { rewrite sum_esize_cons. unfold esize, e1, entry_of. cbn [e_name e_data]. change (sum_esize []) with 0.
    fold (stored_form o compress d1). rewrite nlen_map_norm. unfold sig_end. lia. }
  assert (C1 : sum_csize [e1] <= 1070).
  { rewrite sum_csize_cons. unfold csize, e1, entry_of. cbn [e_name]. change (sum_csize []) with 0. lia. }
  assert (A1 : nlen (archive [e1]) + 64 <= two32) by (rewrite nlen_archive; unfold sig_end, two32 in *; lia).
  assert (S2 : sum_esize [e2] < 200000000 /\ 30 <= sum_esize [e2]).
  { rewrite sum_esize_cons. unfold esize, e2, entry_of. cbn [e_name e_data]. change (sum_esize []) with 0.
    fold (stored_form o compress d2). lia. }
  assert (C2 : sum_csize [e2] <= 1070).
  { rewrite sum_csize_cons. unfold csize, e2, entry_of. cbn [e_name]. change (sum_csize []) with 0. lia. }
  assert (A2 : nlen (archive [e2]) + 64 <= two32) by (rewrite nlen_archive; unfold two32 in *; lia).
  assert (W1 : wf_entry e1) by (split; [split; assumption|apply pack_method]).
  assert (W2 : wf_entry e2) by (split; [split; assumption|apply pack_method]).
  exists (archive [e1]), (archive [e2]). split; [|split; [|split]].
  - pose proof (add_new o compress clock1 [] p1 d1 (or_introl eq_refl) N1 (fun H => match H with end) Hu) as HA.
    cbn [app arch] in HA. fold e1 in HA. rewrite HA; [|lia|reflexivity]. unfold add_code. fold (stored_form o compress d1).
    replace (nlen (stored_form o compress d1) =? 0) with false; [reflexivity|]. symmetry. apply N.eqb_neq. rewrite nlen_map_norm in *. lia.
  - unfold next_file. rewrite (central_dir_pos_blind [e1]); [reflexivity|discriminate|constructor; [exact W1|constructor]|reflexivity|exact S1|exact A1].
  - apply add_blind; try assumption; try reflexivity; [discriminate|constructor; [exact W1|constructor]|fold e2; lia].
  - assert (NE : sum_esize [e2] <> sig_end).
    { rewrite sum_esize_cons. unfold esize, e2, entry_of. cbn [e_name e_data]. change (sum_esize []) with 0.
      fold (stored_form o compress d2). rewrite nlen_map_norm. unfold sig_end. lia. }
    pose proof (walk_all [e2]) as HW. cbn [length arch map] in HW. apply HW.
    + split; [constructor; [exact W2|constructor]|reflexivity|exact NE|exact A2].
    + constructor; [intros []|constructor].
Qed.
Print Assumptions C17_archive_lost_at_blind_offset.

(** Witness: a 101010225-byte file named "a" is stored without an error, then adding "b"
    loses it. *)
Theorem C17_no_silent_overwrite_refuted :
  exists d1 buf buf',
    add_file plain false (0,0) [] [97] d1 = ZOk (AddOk, buf) /\
    add_file plain false (0,0) buf [98] [1] = ZOk (AddOk, buf') /\
    walk 2 buf' [] = ZOk [[98]].
Proof.
  exists (repeat 0 (N.to_nat 101010225)).
  destruct (C17_archive_lost_at_blind_offset plain false (0,0) (0,0) [97] (repeat 0 (N.to_nat 101010225)) [98] [1])
    as (buf & buf' & H1 & _ & H3 & H4).
  - split; reflexivity.
  - split; [cbn; lia|]. intros c t E. injection E as <- _. discriminate.
  - split; [cbn; lia|]. intros c t E. injection E as <- _. discriminate.
  - unfold stored_form, pack. cbn [snd]. unfold nlen. rewrite repeat_length. cbn [length]. lia.
  - reflexivity.
  - exists buf, buf'. split; [exact H1|]. split; [exact H3|exact H4].
Qed.
Print Assumptions C17_no_silent_overwrite_refuted.

(** C18. What RemoveFile does, byte for byte, on every archive the writer can produce
    (distinct names): opened for reading, nothing at all; opened for writing, the complete
    old archive stays at the front, followed by the remaining contents, a second copy of the
    directory entries that preceded the removed one, the remaining directory and an end
    record.  In both cases it reports success. *)
Theorem C18_remove_exact : forall o writable es1 e es2,
  let L := es1 ++ e :: es2 in
  wf_arch L -> NoDup (map e_name L) -> o_utf8 o [] = true -> Forall (fun x => o_utf8 o (e_name x) = true) L ->
  remove_file o writable (archive L) (e_name e) =
  ZOk (if writable
       then archive L ++ locals (es1 ++ es2) ++ centrals 0 es1 ++ centrals 0 (es1 ++ es2) ++ end_header (ai_of (es1 ++ es2))
       else archive L).
Proof. exact remove_exact. Qed.
Print Assumptions C18_remove_exact.

Definition demo_entry (n : N) (d : list N) : zentry :=
  {| e_name := [n]; e_method := 0; e_time := 0; e_date := 0; e_crc := 0; e_usize := nlen d; e_data := d |}.
Definition demo_archive : list zentry := [demo_entry 97 [1]; demo_entry 98 [2]; demo_entry 99 [3]].

Lemma demo_wf : wf_arch demo_archive.
Proof.
  split.
  - repeat constructor; cbn; try lia; intros c t E; injection E as <- _; discriminate.
  - reflexivity.
  - discriminate.
  - vm_compute. discriminate.
Qed.
Example C18_hyps : wf_arch demo_archive /\ NoDup (map e_name demo_archive).
Proof. split; [exact demo_wf|]. repeat constructor; cbn; intuition discriminate. Qed.

(** C18 as a user expects it is false: after removing "b" from an archive with "a", "b", "c"
    opened for writing, the archive cannot be listed at all (although "a" and "c" were
    there); opened for reading, "b" is still listed. *)
Theorem C18_remove_refuted :
  (exists buf, remove_file plain true (archive demo_archive) [98] = ZOk buf /\
     walk 4 (archive demo_archive) [] = ZOk [[97]; [98]; [99]] /\ walk 4 buf [] = ZOk []) /\
  (exists buf, remove_file plain false (archive demo_archive) [98] = ZOk buf /\ walk 4 buf [] = ZOk [[97]; [98]; [99]]).
Proof.
  split; eexists; (split; [vm_compute; reflexivity|]).
  - split; vm_compute; reflexivity.
  - vm_compute; reflexivity.
Qed.
Print Assumptions C18_remove_refuted.

(** C19. On every archive with the layout the library writes - but arbitrary entries, names
    may repeat - the import loop ends iff no name occurs twice; then it handles every entry
    once, in order. *)
Theorem C19_import_terminates_iff : forall es, wf_arch es ->
  (NoDup (map e_name es) -> walk (S (length es)) (arch es) [] = ZOk (map e_name es)) /\
  (~ NoDup (map e_name es) -> forall fuel, walk fuel (arch es) [] = ZFuel).
Proof.
  intros es Hw. split; [intros Hd; apply walk_all; assumption|intros Hd fuel; apply walk_loops; assumption].
Qed.
Print Assumptions C19_import_terminates_iff.

Theorem C19_import_terminates_refuted :
  exists es, wf_arch es /\ nlen (arch es) < 400 /\ forall fuel, walk fuel (arch es) [] = ZFuel.
Proof.
  exists [demo_entry 97 [1]; demo_entry 98 [2]; demo_entry 97 [3]].
  assert (W : wf_arch [demo_entry 97 [1]; demo_entry 98 [2]; demo_entry 97 [3]]).
  { split.
    - repeat constructor; cbn; try lia; intros c t E; injection E as <- _; discriminate.
    - reflexivity.
    - discriminate.
    - vm_compute. discriminate. }
  split; [exact W|]. split; [vm_compute; reflexivity|].
  apply (C19_import_terminates_iff _ W). cbn. intros H. inversion H as [|x y H1 H2]; subst. apply H1. right. left. reflexivity.
Qed.
Print Assumptions C19_import_terminates_refuted.

(** C58. Writing an archive, closing it and opening the file again: whatever was on disk or
    open before, every file added (and nothing else) is there. *)
Theorem C58_close_reopen : forall o compress ops s0,
  contract o -> ops <> [] -> reachable_fit (stored_form o compress) [] ops ->
  let fs := snd (spec_run (stored_form o compress) [] ops) in
  exists codes s1 buf, z_adds o ops (z_open_new_write compress s0) = ZOk (codes, s1) /\
    codes = fst (spec_run (stored_form o compress) [] ops) /\
    z_buf (z_open_read (z_close s1)) = Some buf /\
    z_disk (z_close s1) = buf /\
    walk (S (length fs)) buf [] = ZOk (map fst fs) /\
    (forall n d, lookup n fs = Some d -> o_utf8 o n = true -> get_file o buf n = ZOk (Some d)).
Proof.
  intros o compress ops s0 Hc Hne Hr fs.
  destruct (C15_archive_round_trip o compress ops Hc Hr) as (buf & E & Hg & _).
  destruct (C16_archive_listing o compress ops Hc Hr) as (codes & buf' & E' & Hl & _).
  rewrite E in E'. injection E' as E1 E2. subst codes buf'. fold fs in Hg, Hl.
  rewrite (z_adds_run o ops (z_open_new_write compress s0) []) by reflexivity.
  cbn [z_open_new_write z_compress z_disk z_forread]. rewrite E. cbn [zbind].
  assert (Hb : buf <> []).
  { intros ->. destruct ops as [|[[c p] d] ops']; [congruence|]. unfold fs in Hl. cbn [walk] in Hl.
    change (next_file [] []) with (ZOk (@None (list N))) in Hl. cbn [zbind] in Hl.
    cbn [spec_run] in Hl. unfold spec_add in Hl. cbn [mem existsb app] in Hl.
    assert (G : forall ops f, f <> [] -> snd (spec_run (stored_form o compress) f ops) <> []).
    { clear. induction ops as [|[[c p] d] ops IH]; intros f Hf; cbn [spec_run]; [exact Hf|].
      destruct (spec_add (stored_form o compress) f p d) as [c' f'] eqn:ES.
      assert (Hf' : f' <> []) by (unfold spec_add in ES; destruct (mem _ f); injection ES as _ <-; [exact Hf|destruct f; discriminate]).
      specialize (IH f' Hf'). destruct (spec_run (stored_form o compress) f' ops). exact IH. }
    specialize (G ops' [(map (fun c0 : N => if c0 =? 92 then 47 else c0) p, d)] ltac:(discriminate)).
    destruct (spec_run (stored_form o compress) [(map (fun c0 : N => if c0 =? 92 then 47 else c0) p, d)] ops') as [cs f''].
    cbn [snd] in *. destruct f''; [congruence|discriminate]. }
  eexists _, _, buf. split; [reflexivity|]. split; [reflexivity|].
  destruct buf as [|b0 buf0]; [congruence|].
  split; [reflexivity|]. split; [reflexivity|]. split; [exact Hl|exact Hg].
Qed.
Print Assumptions C58_close_reopen.

(** C59. Opening an existing archive for writing and adding a file does not keep the files
    that were in it: the result does not depend on the old content, it holds only the new
    file. *)
Theorem C59_open_write_discards : forall o clock path data s0,
  contract o -> fits (stored_form o true) [(norm_path path, data)] ->
  exists code s1, z_add o clock path data (z_open_write s0) = ZOk (code, s1) /\
    walk 2 (z_disk (z_close s1)) [] = ZOk [norm_path path].
Proof.
  intros o clock path data s0 Hc Hf.
  destruct (C58_close_reopen o true [(clock, path, data)] s0 Hc ltac:(discriminate)) as (codes & s1 & buf & E & _ & _ & Hd & Hw & _).
  - cbn [reachable_fit]. unfold spec_add. cbn [mem existsb snd app]. split; [exact Hf|exact I].
  - cbn [z_adds] in E. unfold z_open_write. destruct (z_add o clock path data (z_open_new_write true s0)) as [[c s']| | | |]; try discriminate.
    cbn [zbind] in E. injection E as _ <-. exists c, s'. split; [reflexivity|]. rewrite Hd. exact Hw.
Qed.
Print Assumptions C59_open_write_discards.

Theorem C59_open_write_keeps_files_refuted :
  exists s0 code s1, walk 4 (z_disk s0) [] = ZOk [[97]; [98]; [99]] /\
    z_add plain (0,0) [100] [7] (z_open_write s0) = ZOk (code, s1) /\
    walk 5 (z_disk (z_close s1)) [] = ZOk [[100]].
Proof.
  exists {| z_disk := archive demo_archive; z_buf := None; z_forread := true; z_write := false; z_compress := true |}.
  eexists _, _. split; [vm_compute; reflexivity|]. split; [vm_compute; reflexivity|vm_compute; reflexivity].
Qed.
Print Assumptions C59_open_write_keeps_files_refuted.

(** C60. The checksum stored with an entry plays no role when reading: whatever it is, the
    stored bytes are delivered without an error. *)
Theorem C60_crc_ignored : forall o es1 e es2,
  wf_arch (es1 ++ e :: es2) -> ~ In (e_name e) (map e_name es1) -> o_utf8 o [] = true -> o_utf8 o (e_name e) = true ->
  e_method e = 0 ->
  get_file o (archive (es1 ++ e :: es2)) (e_name e) = ZOk (Some (e_data e)).
Proof.
  intros o es1 e es2 Hw Hni Hu0 Hu Hm. rewrite (get_file_archive o es1 e es2 Hw Hni Hu0 Hu), Hm. reflexivity.
Qed.
Print Assumptions C60_crc_ignored.

(** C60 as expected - a changed content byte is detected - is false: flip one byte of the
    stored file and it is delivered in place of the original. *)
Theorem C60_damage_detected_refuted :
  exists o buf buf' codes i, run_adds o false [((0,0), [97], [1;2;3])] [] = ZOk (codes, buf) /\
    nlen buf' = nlen buf /\ (forall j, j <> i -> nth_error buf' j = nth_error buf j) /\
    o_crc o [1;2;3] <> o_crc o [1;9;3] /\
    get_file o buf [97] = ZOk (Some [1;2;3]) /\ get_file o buf' [97] = ZOk (Some [1;9;3]).
Proof.
  set (o := {| o_deflate := fun d => d; o_inflate := Some; o_crc := fun d => fold_right N.add 0 d; o_utf8 := fun _ => true |}).
  eexists o, _, _, _, 32%nat. split; [vm_compute; reflexivity|].
  match goal with |- nlen ?b' = nlen ?b /\ _ =>
    instantiate (1 := ltac:(let t := eval vm_compute in (firstn 32 (archive [entry_of o false (0,0) [97] [1;2;3]]) ++ 9 :: skipn 33 (archive [entry_of o false (0,0) [97] [1;2;3]])) in exact t)) end.
  split; [vm_compute; reflexivity|]. split.
  - intros j Hj. do 32 (destruct j as [|j]; [reflexivity|]). destruct j as [|j]; [congruence|]. reflexivity.
  - split; [vm_compute; discriminate|]. split; vm_compute; reflexivity.
Qed.
Print Assumptions C60_damage_detected_refuted.
