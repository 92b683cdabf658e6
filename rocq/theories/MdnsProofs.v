(** Lemmas about MdnsModel: names. *)
From Coq Require Import String List NArith ZArith Lia Bool Arith.
From Coq Require Import ZifyN ZifyNat ZifyBool.
From Verif Require Import Bytes BytesProofs Txt NumModel JsonModel ServiceModel ServiceProofs XmlRef MdnsModel MdnsSpec.
Import ListNotations.
Open Scope N_scope.
Ltac Zify.zify_post_hook ::= idtac.

(** ** Reading memory *)
Lemma rd8_iff m i b : rd8 m i = Ok b <-> byte_at m i b.
Proof. unfold rd8, byte_at. destruct (nth_error m (N.to_nat i)); split; congruence. Qed.
Lemma rd8_in m i : i < nlen m -> exists b, rd8 m i = Ok b.
Proof.
  intros H. unfold rd8. destruct (nth_error m (N.to_nat i)) eqn:E; [eexists; reflexivity|].
  apply nth_error_None in E. unfold nlen in H. lia.
Qed.
Lemma rd8_out m i : nlen m <= i -> rd8 m i = UB.
Proof. intros H. unfold rd8. rewrite (proj2 (nth_error_None _ _)); [reflexivity|]. unfold nlen in H. lia. Qed.
Lemma byte_at_in m i b : byte_at m i b -> i < nlen m.
Proof. unfold byte_at. intros H. assert (N.to_nat i < List.length m)%nat by (apply nth_error_Some; congruence). unfold nlen. lia. Qed.
Lemma byte_at_app a x c : byte_at (a ++ x :: c) (nlen a) x.
Proof. unfold byte_at, nlen. rewrite Nat2N.id, nth_error_app2, Nat.sub_diag by lia. reflexivity. Qed.
Lemma byte_at_skip a c i b : byte_at c i b -> byte_at (a ++ c) (nlen a + i) b.
Proof. unfold byte_at, nlen. intros H. rewrite nth_error_app2 by lia. rewrite <- H. f_equal. lia. Qed.
Lemma byte_at_left a c i b : byte_at a i b -> byte_at (a ++ c) i b.
Proof. unfold byte_at. intros H. rewrite nth_error_app1; [exact H|]. apply nth_error_Some. congruence. Qed.
Lemma byte_at_fun m i b b' : byte_at m i b -> byte_at m i b' -> b = b'.
Proof. unfold byte_at. congruence. Qed.
Lemma rd16_at m i a b : byte_at m i a -> byte_at m (i + 1) b -> rd16 m i = Ok (256 * a + b).
Proof. intros A B. unfold rd16. rewrite (proj2 (rd8_iff m i a) A). cbn [bind]. rewrite (proj2 (rd8_iff m (i + 1) b) B). reflexivity. Qed.
Lemma be2 v : v < 65536 -> be_bytes 2 v = [v / 256; v mod 256].
Proof.
  intros H. unfold be_bytes. cbn [le_bytes rev app]. f_equal. apply N.mod_small. apply N.div_lt_upper_bound; lia.
Qed.
Lemma be4 v : v < 4294967296 -> be_bytes 4 v = be_bytes 2 (v / 65536) ++ be_bytes 2 (v mod 65536).
Proof.
  intros H. unfold be_bytes. cbn [le_bytes rev app].
  assert (A : v / 256 / 256 = v / 65536) by (rewrite N.div_div by lia; reflexivity). rewrite A.
  assert (B : (v mod 65536) mod 256 = v mod 256).
  { rewrite (N.div_mod v 65536) at 2 by lia. rewrite N.add_comm. replace (65536 * (v / 65536)) with ((v / 65536 * 256) * 256) by lia.
    rewrite N.mod_add by lia. reflexivity. }
  assert (C : (v mod 65536) / 256 = v / 256 mod 256).
  { change 65536 with (256 * 256). rewrite N.mod_mul_r by lia. rewrite N.add_comm, N.mul_comm, N.div_add_l by lia.
    rewrite (N.div_small (v mod 256)) by (apply N.mod_lt; lia). lia. }
  rewrite B, C. rewrite (N.mod_mod (v / 256)) by lia. reflexivity.
Qed.
Lemma rd16_app a v c i : v < 65536 -> i = nlen a -> rd16 (a ++ be_bytes 2 v ++ c) i = Ok v.
Proof.
  intros H ->. rewrite (be2 v H). cbn [app]. rewrite (rd16_at _ (nlen a) (v / 256) (v mod 256)).
  - f_equal. symmetry. apply N.div_mod. lia.
  - apply byte_at_app.
  - replace (a ++ v / 256 :: v mod 256 :: c) with ((a ++ [v / 256]) ++ v mod 256 :: c) by (rewrite <- app_assoc; reflexivity).
    replace (nlen a + 1) with (nlen (a ++ [v / 256])) by (rewrite nlen_app; reflexivity). apply byte_at_app.
Qed.
Lemma rd32_app a v c i : v < 4294967296 -> i = nlen a -> rd32 (a ++ be_bytes 4 v ++ c) i = Ok v.
Proof.
  intros H ->. rewrite (be4 v H), <- app_assoc. unfold rd32.
  assert (A : v / 65536 < 65536) by (apply N.div_lt_upper_bound; lia). assert (B : v mod 65536 < 65536) by (apply N.mod_lt; lia).
  rewrite rd16_app by (exact A || reflexivity). cbn [bind].
  rewrite app_assoc. rewrite rd16_app by (exact B || (rewrite nlen_app, nlen_be_bytes; reflexivity)). cbn [bind].
  f_equal. symmetry. apply N.div_mod. lia.
Qed.
Lemma rd_bytes_ok m i n : i + n <= nlen m -> rd_bytes m i n = Ok (slice i n m).
Proof. intros H. unfold rd_bytes. rewrite (proj2 (N.ltb_ge _ _)) by exact H. reflexivity. Qed.
Lemma slice_pre (m : list N) i k n : n <= k -> slice i n m = firstn (N.to_nat n) (slice i k m).
Proof. intros H. unfold slice. rewrite firstn_firstn, Nat.min_l by lia. reflexivity. Qed.

(** ** The bits of the first byte *)
Lemma is_ref_low n : n < 192 -> is_ref n = false.
Proof. intros H. apply negb_true_iff. apply (all_below (fun n => negb (is_ref n)) 192); [vm_compute; reflexivity|]. change (N.of_nat 192) with 192. exact H. Qed.
Lemma is_ref_high n : n < 64 -> is_ref (192 + n) = true.
Proof. intros H. apply (all_below (fun n => is_ref (192 + n)) 64); [vm_compute; reflexivity|]. change (N.of_nat 64) with 64. exact H. Qed.
Lemma ref_target t : t < 16384 -> N.land 16383 (256 * (192 + t / 256) + t mod 256) = t.
Proof.
  intros H. rewrite N.land_comm. change 16383 with (N.ones 14). rewrite N.land_ones. change (2 ^ 14) with 16384.
  replace (256 * (192 + t / 256) + t mod 256) with (t + 3 * 16384).
  - rewrite N.mod_add by lia. apply N.mod_small. exact H.
  - pose proof (N.div_mod t 256 ltac:(lia)). lia.
Qed.
Lemma target_bound w : N.land 16383 w < 16384.
Proof. rewrite N.land_comm. change 16383 with (N.ones 14). rewrite N.land_ones. apply N.mod_lt. discriminate. Qed.

(** ** One part of a name *)
Lemma next_end m size off : byte_at m off 0 -> next_part m size off = Ok (Some (mkPart off 0 false)).
Proof. intros H. unfold next_part. rewrite (proj2 (rd8_iff _ _ _) H). reflexivity. Qed.
Lemma next_label m size off n : byte_at m off n -> 1 <= n < 192 -> off + 1 + n <= size ->
  next_part m size off = Ok (Some (mkPart (off + 1) n false)).
Proof.
  intros H N1 S1. unfold next_part. rewrite (proj2 (rd8_iff _ _ _) H). cbn [bind].
  rewrite (proj2 (N.eqb_neq _ _)) by lia. rewrite is_ref_low by lia. rewrite (proj2 (N.ltb_ge _ _)) by lia. reflexivity.
Qed.
Lemma next_ref m size off t n : byte_at m off (192 + t / 256) -> byte_at m (off + 1) (t mod 256) -> off + 2 <= size -> t < 16384 ->
  t < size -> byte_at m t n -> t + 1 + n <= size ->
  next_part m size off = Ok (Some (mkPart (t + 1) n true)).
Proof.
  intros A B S1 T1 T2 C S2. unfold next_part. rewrite (proj2 (rd8_iff _ _ _) A). cbn [bind].
  assert (t / 256 < 64) by (apply N.div_lt_upper_bound; lia).
  rewrite (proj2 (N.eqb_neq _ _)) by lia. rewrite is_ref_high by assumption. rewrite (proj2 (N.ltb_ge _ _)) by lia.
  rewrite (rd16_at _ _ _ _ A B). cbn [bind]. rewrite ref_target by exact T1. cbv zeta.
  rewrite (proj2 (N.leb_gt _ _)) by exact T2. rewrite (proj2 (rd8_iff _ _ _) C). cbn [bind].
  rewrite (proj2 (N.ltb_ge _ _)) by lia. reflexivity.
Qed.
(** Whatever the bytes are. *)
Lemma next_any m size off p : next_part m size off = Ok (Some p) ->
  (pRef p = false /\ pLen p = 0 /\ pOff p = off) \/
  (pRef p = false /\ pLen p <> 0 /\ pOff p = off + 1 /\ pOff p + pLen p <= size) \/
  (pRef p = true /\ off + 2 <= size /\ pOff p + pLen p <= size).
Proof.
  unfold next_part. destruct (rd8 m off) as [b| | |]; try discriminate. cbn [bind]. destruct (b =? 0) eqn:E0.
  { intros H. injection H as <-. left. tauto. }
  apply N.eqb_neq in E0. destruct (is_ref b).
  - destruct (size <? off + 2) eqn:E1; [discriminate|]. apply N.ltb_ge in E1. destruct (rd16 m off) as [w| | |]; try discriminate. cbn [bind]. cbv zeta.
    destruct (size <=? N.land 16383 w); [discriminate|]. destruct (rd8 m (N.land 16383 w)) as [n| | |]; try discriminate. cbn [bind].
    destruct (size <? N.land 16383 w + 1 + n) eqn:E2; [discriminate|]. apply N.ltb_ge in E2. intros H. injection H as <-. right. right. cbn [pRef pOff pLen]. tauto.
  - destruct (size <? off + 1 + b) eqn:E2; [discriminate|]. apply N.ltb_ge in E2. intros H. injection H as <-. right. left. cbn [pRef pOff pLen]. tauto.
Qed.
Lemma next_not_loop m size off : next_part m size off <> Loop /\ next_part m size off <> Exc.
Proof.
  unfold next_part, rd16, rd8. cbn [bind].
  destruct (nth_error m (N.to_nat off)); cbn [bind]; [|split; discriminate]. destruct (n =? 0); [split; discriminate|].
  destruct (is_ref n).
  - destruct (size <? off + 2); [split; discriminate|]. destruct (nth_error m (N.to_nat (off + 1))); cbn [bind]; [|split; discriminate]. cbv zeta.
    destruct (size <=? _); [split; discriminate|]. destruct (nth_error m _); cbn [bind]; [|split; discriminate]. destruct (size <? _); split; discriminate.
  - destruct (size <? _); split; discriminate.
Qed.
Lemma next_inside m size off : size <= nlen m -> off < nlen m -> exists p, next_part m size off = Ok p.
Proof.
  intros S1 O1. unfold next_part. destruct (rd8_in m off O1) as [b ->]. cbn [bind]. destruct (b =? 0); [eexists; reflexivity|].
  destruct (is_ref b).
  - destruct (size <? off + 2) eqn:E1; [eexists; reflexivity|]. apply N.ltb_ge in E1. unfold rd16.
    destruct (rd8_in m off O1) as [x ->]. cbn [bind]. destruct (rd8_in m (off + 1) ltac:(lia)) as [y ->]. cbn [bind]. cbv zeta.
    destruct (size <=? N.land 16383 (256 * x + y)) eqn:E2; [eexists; reflexivity|]. apply N.leb_gt in E2.
    destruct (rd8_in m (N.land 16383 (256 * x + y)) ltac:(lia)) as [n ->]. cbn [bind]. destruct (size <? _); eexists; reflexivity.
  - destruct (size <? _); eexists; reflexivity.
Qed.

(** ** Names that follow RFC 1035 *)
(** The first part and what follows: how every reader walks along a name. *)
Lemma spelled_step m size off ls e : spelled false m size off ls e ->
  (ls = [] /\ exists p, next_part m size off = Ok (Some p) /\ pLen p = 0 /\ pOff p <= nlen m /\
     e = if pRef p then off + 2 else pOff p + 1) \/
  (exists l ls' p e', ls = l :: ls' /\ next_part m size off = Ok (Some p) /\ pLen p = nlen l /\ 1 <= nlen l <= 63 /\
     slice (pOff p) (nlen l) m = l /\ pOff p + pLen p <= size /\ pOff p + pLen p <= nlen m /\ (pRef p = false -> pOff p = off + 1) /\
     spelled false m size (pOff p + pLen p) ls' e' /\ e = if pRef p then off + 2 else e').
Proof.
  intros H. assert (Sl : forall off l, slice (off + 1) (nlen l) m = l -> 1 <= nlen l -> off + 1 + nlen l <= nlen m).
  { intros o l E L. assert (X : nlen (slice (o + 1) (nlen l) m) = nlen l) by (rewrite E; reflexivity).
    unfold slice, nlen in *. rewrite firstn_length, skipn_length in X. lia. }
  destruct H as [off B O1|off l ls e B L S1 E1 R|off t ls e B1 B2 O1 T1 T2 C R].
  - left. split; [reflexivity|]. eexists. split; [apply next_end; exact B|]. cbn [pOff pLen pRef]. apply byte_at_in in B. split; [reflexivity|]. split; [lia|reflexivity].
  - right. do 4 eexists. split; [reflexivity|]. split; [apply next_label; [exact B|lia|exact S1]|]. cbn [pLen pOff pRef].
    split; [reflexivity|]. split; [exact L|]. split; [exact E1|]. split; [exact S1|]. split; [apply Sl; [exact E1|lia]|].
    split; [reflexivity|]. split; [exact R|reflexivity].
  - destruct C as [C|(b&C&Lb)]; [discriminate C|].
    inversion R as [o B O2 E2 E3|o l ls' e' B L S1 E1 R' E2 E3 E4|o t' ls' e' X1 X2 X3 X4 X5 X6 X7]; subst.
    + left. split; [reflexivity|]. eexists. split; [apply (next_ref m size off t 0); try assumption; lia|]. cbn [pOff pLen pRef]. apply byte_at_in in B. split; [reflexivity|]. split; [lia|reflexivity].
    + right. do 4 eexists. split; [reflexivity|]. split; [apply (next_ref m size off t (nlen l)); try assumption|]. cbn [pLen pOff pRef].
      split; [reflexivity|]. split; [exact L|]. split; [exact E1|]. split; [exact S1|]. split; [apply Sl; [exact E1|lia]|].
      split; [discriminate|]. split; [exact R'|reflexivity].
    + exfalso. pose proof (byte_at_fun _ _ _ _ C X1). lia.
Qed.
Lemma firstn_nil_le {A} n (l : list A) : n = 0%nat -> firstn n l = [].
Proof. intros ->. reflexivity. Qed.
(** [extract] writes the dotted text as far as there is room. *)
Lemma extract_spelled m size : forall ls off e fin out remain, spelled false m size off ls e -> forall fuel, (List.length ls < fuel)%nat ->
  extract_loop fuel m size off fin out remain =
  Ok (out ++ firstn (N.to_nat remain) (dotted ls), remain - nlen (dotted ls), Some (match fin with Some x => x | None => e end)).
Proof.
  induction ls as [|l ls IH]; intros off e fin out remain Sp fuel Fu; (destruct fuel as [|f]; [cbn [List.length] in Fu; lia|]); cbn [extract_loop];
    destruct (spelled_step _ _ _ _ _ Sp) as [(Q&p&P&L&PO&E)|(l0&ls'&p&e'&Q&P&L&L2&S1&S2&S3&S4&R&E)]; try discriminate Q; rewrite P; cbn [bind].
  - rewrite L. cbn [dotted flat_map]. cbv zeta. change (0 =? 0) with true. cbv iota. cbn [bind fst snd]. replace (firstn (N.to_nat remain) []) with (@nil N) by (destruct (N.to_nat remain); reflexivity). rewrite app_nil_r. change (nlen []) with 0. rewrite N.sub_0_r, N.add_0_r.
    subst e. destruct fin, (pRef p); reflexivity.
  - injection Q as <- <-. cbv zeta. rewrite (proj2 (N.eqb_neq _ _)) by lia. rewrite L. cbn [List.length] in Fu.
    set (n := if nlen l <? remain then nlen l else remain).
    assert (Hn : n <= nlen l /\ n <= remain /\ (n = nlen l \/ n = remain)).
    { unfold n. destruct (N.ltb_spec (nlen l) remain); lia. }
    rewrite rd_bytes_ok by lia. cbn [bind]. rewrite (slice_pre m (pOff p) (nlen l) n) by lia. rewrite S1.
    rewrite <- L.
    match goal with |- context [extract_loop f m size _ ?F _ _] => set (fin' := F) end.
    assert (E' : Some match fin with Some x => x | None => e end = Some match fin' with Some x => x | None => e' end).
    { unfold fin'. subst e. destruct fin, (pRef p); reflexivity. }
    rewrite E'. clearbody fin'. clear E'. cbn [dotted flat_map]. fold (dotted ls).
    rewrite nlen_app, nlen_app. change (nlen [46]) with 1.
    destruct (N.eqb_spec (remain - n) 0) as [Z|Z]; cbn [bind fst snd].
    + rewrite (IH _ e' _ _ _ R) by lia. f_equal. f_equal. f_equal.
      * rewrite Z. cbn [N.to_nat firstn]. rewrite app_nil_r. f_equal. rewrite <- app_assoc, firstn_app.
        replace (N.to_nat remain - List.length l)%nat with 0%nat by (unfold nlen in *; lia). cbn [firstn]. rewrite app_nil_r. f_equal. lia.
      * lia.
    + assert (Hn' : n = nlen l) by lia. rewrite (IH _ e' _ _ _ R) by lia. f_equal. f_equal. f_equal.
      * rewrite <- app_assoc. f_equal. rewrite Hn'. unfold nlen. rewrite Nat2N.id, firstn_all. rewrite firstn_app.
        rewrite (firstn_all2 (l ++ [46])) by (rewrite app_length; cbn [List.length]; unfold nlen in *; lia).
        f_equal. f_equal. rewrite app_length. cbn [List.length]. unfold nlen in *. lia.
      * lia.
Qed.
Lemma name_text_extract fuel m size off cap ls e : spelled false m size off ls e -> (List.length ls < fuel)%nat ->
  exists x, extract fuel m size off cap = Ok x /\ name_text x = firstn (N.to_nat cap) (dotted ls) /\ xOffset x = e.
Proof.
  intros Sp Fu. unfold extract. rewrite (extract_spelled m size ls off e None [] cap Sp fuel Fu). cbn [bind fst snd app].
  eexists. split; [reflexivity|]. split; [|reflexivity]. unfold name_text. cbn [xLength xWritten]. apply firstn_all2.
  rewrite firstn_length. unfold nlen. lia.
Qed.
Lemma skip_spelled m size : forall ls off e, spelled false m size off ls e -> forall fuel, (N.to_nat (size - off) < fuel)%nat ->
  skip_loop fuel m size off = Ok (Some e).
Proof.
  induction ls as [|l ls IH]; intros off e Sp fuel Fu; (destruct fuel as [|f]; [lia|]); cbn [skip_loop];
    destruct (spelled_step _ _ _ _ _ Sp) as [(Q&p&P&L&PO&E)|(l0&ls'&p&e'&Q&P&L&L2&S1&S2&S3&S4&R&E)]; try discriminate Q; rewrite P; cbn [bind];
    subst e; destruct (pRef p); try reflexivity.
  - rewrite L. change (0 =? 0) with true. cbv iota. rewrite N.add_0_r. reflexivity.
  - injection Q as <- <-. rewrite (proj2 (N.eqb_neq _ _)) by lia. apply IH; [exact R|]. rewrite S4 in S2 |- * by reflexivity. lia.
Qed.
Lemma name_skip_spelled m size off ls e : spelled false m size off ls e -> name_skip m size off = Ok (Some e).
Proof. intros Sp. apply (skip_spelled m size ls); [exact Sp|]. lia. Qed.

(** ** Comparison *)
Lemma lower_fold c : lower c = fold_case c. Proof. reflexivity. Qed.
Lemma same_nocase_iff : forall a b, List.length a = List.length b -> ~ In 0 b ->
  (same_nocase b a = true <-> map fold_case a = map fold_case b).
Proof.
  induction a as [|x a IH]; intros [|y b] L Z; cbn [List.length] in L; try discriminate L; [cbn; tauto|].
  cbn [same_nocase map]. cbn [In] in Z. replace (y =? 0) with false by (symmetry; apply N.eqb_neq; intros ->; tauto). cbn [orb].
  rewrite andb_true_iff, N.eqb_eq, !lower_fold. rewrite IH by (try lia; tauto). split.
  - intros [A B]. rewrite A, B. reflexivity.
  - intros H. injection H as A B. split; [symmetry; exact A|exact B].
Qed.
Definition name_end (fin : option N) (e : N) : N := match fin with Some x => x | None => e end.
Lemma equal_spelled m1 size1 m2 size2 : forall ls1 ls2 off1 e1 off2 e2 f1 f2, spelled false m1 size1 off1 ls1 e1 -> spelled false m2 size2 off2 ls2 e2 ->
  Forall (fun l => ~ In 0 l) ls2 -> forall fuel, (List.length ls1 < fuel \/ List.length ls2 < fuel)%nat ->
  (same_labels ls1 ls2 /\ equal_loop fuel m1 size1 off1 f1 m2 size2 off2 f2 = Ok (Some (name_end f1 e1, name_end f2 e2))) \/
  (~ same_labels ls1 ls2 /\ equal_loop fuel m1 size1 off1 f1 m2 size2 off2 f2 = Ok None).
Proof.
  unfold same_labels.
  induction ls1 as [|l1 ls1 IH]; intros ls2 off1 e1 off2 e2 f1 f2 Sp1 Sp2 Z fuel Fu; (destruct fuel as [|f]; [lia|]); cbn [equal_loop];
  (destruct (spelled_step _ _ _ _ _ Sp1) as [(Q1&p1&P1&L1&O1&E1)|(l1'&ls1'&p1&e1'&Q1&P1&L1&M1&S1&B1&C1&D1&R1&E1)]; try discriminate Q1); rewrite P1; cbn [bind];
  (destruct (spelled_step _ _ _ _ _ Sp2) as [(Q2&p2&P2&L2&O2&E2)|(l2&ls2'&p2&e2'&Q2&P2&L2&M2&S2&B2&C2&D2&R2&E2)]); rewrite P2; cbn [bind]; rewrite L1, L2; subst ls2.
  - left. split; [constructor|]. change (negb (0 =? 0)) with false. cbv iota. rewrite !rd_bytes_ok by lia. cbn [bind].
    change (slice (pOff p1) 0 m1) with (@nil N). cbn [same_nocase negb]. change (slice (pOff p2) 0 m2) with (@nil N). cbn [same_nocase negb].
    change (0 =? 0) with true. cbv zeta iota. subst e1 e2. rewrite !N.add_0_r. destruct f1, f2, (pRef p1), (pRef p2); reflexivity.
  - right. split; [inversion 1|]. rewrite (proj2 (N.eqb_neq 0 (nlen l2))) by lia. reflexivity.
  - right. split; [inversion 1|]. injection Q1 as <- <-. rewrite (proj2 (N.eqb_neq (nlen l1) 0)) by lia. reflexivity.
  - injection Q1 as <- <-. inversion_clear Z as [|? ? Z1 Z2]. cbn [List.length] in Fu.
    destruct (N.eqb_spec (nlen l1) (nlen l2)) as [NL|NL]; cbn [negb].
    + rewrite !rd_bytes_ok by lia. cbn [bind]. replace (slice (pOff p1) (nlen l2) m1) with l1 by (rewrite <- NL; symmetry; exact S1). rewrite S2.
      pose proof (same_nocase_iff l1 l2 ltac:(unfold nlen in NL; lia) Z1) as W.
      destruct (same_nocase l2 l1); cbn [negb].
      * rewrite (proj2 (N.eqb_neq (nlen l1) 0)) by lia. cbv zeta.
        match goal with |- context [equal_loop f m1 size1 _ ?F m2 size2 _ ?G] => set (f1' := F); set (f2' := G) end.
        rewrite L1 in R1. rewrite L2 in R2.
        assert (X : name_end f1 e1 = name_end f1' e1') by (unfold f1', name_end; subst e1; destruct f1, (pRef p1); reflexivity).
        assert (Y : name_end f2 e2 = name_end f2' e2') by (unfold f2', name_end; subst e2; destruct f2, (pRef p2); reflexivity).
        destruct (IH ls2' _ e1' _ e2' f1' f2' R1 R2 Z2 f ltac:(lia)) as [[U V]|[U V]]; rewrite V.
        -- left. rewrite X, Y. split; [constructor; [tauto|exact U]|reflexivity].
        -- right. split; [|reflexivity]. intros F. inversion F. contradiction.
      * right. split; [|reflexivity]. intros F. inversion F as [|? ? ? ? F1 F2]. apply W in F1. discriminate F1.
    + right. split; [|reflexivity]. intros F. inversion F as [|? ? ? ? F1 F2]. apply NL. unfold nlen. rewrite <- (map_length fold_case l1), F1, map_length. reflexivity.
Qed.
