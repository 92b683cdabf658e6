(** C40-C45, C67: numbers, lists, dates, hexadecimal values, identifiers and addresses as attributes. *)
From Coq Require Import List NArith ZArith String Lia Bool.
From Coq Require Import ZifyN ZifyNat ZifyBool.
From Verif Require Import Bytes BytesProofs Txt UtfSpec UtfModel UtfProofs StringModel StringSpec StringProofs StringProps
  UuidModel UuidProps NumModel NumProofs ConvModel.
Import ListNotations.
Open Scope N_scope.
Open Scope list_scope.
Ltac Zify.zify_post_hook ::= Z.div_mod_to_equations.

Definition sint32 (z : Z) : Prop := (- 2147483648 <= z <= 2147483647)%Z.

(** ** Helpers *)
Lemma seq_get_gen : forall (s pre : list N) n, (n <= List.length s)%nat ->
  map (get_at (pre ++ s)) (seq (List.length pre) n) = firstn n s.
Proof.
  induction s as [|c s IH]; intros pre n Hn; destruct n as [|n]; try reflexivity.
  - cbn in Hn. lia.
  - cbn [seq map firstn]. f_equal.
    + unfold get_at. rewrite app_nth2 by lia. rewrite Nat.sub_diag. reflexivity.
    + specialize (IH (pre ++ [c]) n). rewrite <- app_assoc in IH. cbn [app] in IH.
      rewrite app_length in IH. cbn [List.length] in IH, Hn. rewrite Nat.add_1_r in IH. apply IH. lia.
Qed.
Lemma seq_get s n : (n <= List.length s)%nat -> map (get_at s) (seq 0 n) = firstn n s.
Proof. apply (seq_get_gen s []). Qed.

Lemma nlen_to_nat (s : list N) : N.to_nat (nlen s) = List.length s.
Proof. unfold nlen. lia. Qed.

Lemma find_none s ch : ~ In ch s -> tx_find_ch s ch 0 false = None.
Proof.
  intros H. pose proof (find_ch_spec s ch 0) as S. destruct (tx_find_ch s ch 0 false) as [p|]; [|reflexivity].
  destruct S as (_ & S & _). apply at_pos_in in S. contradiction.
Qed.

(** Pieces, the numbers they stand for, none empty, none containing the separator. *)
Definition piece (sep : N) (p : list N) (z : Z) : Prop := p <> [] /\ ~ In sep p /\ atoi p = Ok z.

Lemma deserialize_join sep : forall ps zs fuel arr, Forall2 (piece sep) ps zs -> ps <> [] ->
  (List.length (join_with [sep] ps) < fuel)%nat ->
  deserialize fuel (join_with [sep] ps) sep arr = Ok (arr ++ zs).
Proof.
  induction ps as [|p ps IH]; intros zs fuel arr F Hne Hf; [congruence|].
  inversion F as [|? z ? zs' (P1 & P2 & P3) F' E1 E2]; subst. destruct fuel as [|fuel]; [lia|].
  destruct ps as [|p' ps].
  - inversion F'; subst. cbn [join_with deserialize]. rewrite find_none by exact P2. rewrite P3. reflexivity.
  - change (join_with [sep] (p :: p' :: ps)) with (p ++ [sep] ++ join_with [sep] (p' :: ps)) in *.
    set (rest := join_with [sep] (p' :: ps)) in *. cbn [deserialize].
    assert (E : tx_find_ch (p ++ [sep] ++ rest) sep 0 false = Some (nlen p)).
    { apply (find_ch_at [] p sep rest 0); [exact P2|cbn; lia|lia]. }
    rewrite E. destruct (nlen p) as [|k] eqn:Ek.
    { destruct p; [congruence|]. rewrite nlen_cons in Ek. lia. }
    replace (Pos.to_nat k) with (List.length p) by (unfold nlen in Ek; lia).
    change (map (fun i : nat => get_at (p ++ [sep] ++ rest) i)) with (map (get_at (p ++ [sep] ++ rest))).
    rewrite seq_get by (rewrite app_length; lia).
    rewrite firstn_app, firstn_all, Nat.sub_diag, firstn_O, app_nil_r, P3. cbn [bind].
    assert (D : delete (p ++ [sep] ++ rest) 0 (N.pos k + 1) = rest).
    { unfold delete. replace (0 <? _) with true by (rewrite !nlen_app; cbn [nlen List.length]; unfold nlen in *; lia).
      cbn [N.to_nat firstn app]. replace (N.to_nat (0 + (N.pos k + 1))) with (List.length p + 1)%nat by (unfold nlen in Ek; lia).
      rewrite skipn_app. rewrite skipn_all2 by lia. replace (List.length p + 1 - List.length p)%nat with 1%nat by lia. reflexivity. }
    rewrite D. rewrite IH with (zs := zs').
    + rewrite <- app_assoc. reflexivity.
    + exact F'.
    + discriminate.
    + rewrite !app_length in Hf. cbn [List.length] in Hf. fold rest. lia.
Qed.
Lemma deser_join sep ps zs arr : Forall2 (piece sep) ps zs -> ps <> [] ->
  deser (join_with [sep] ps) sep arr = Ok (arr ++ zs).
Proof. intros F Hn. unfold deser. apply deserialize_join; auto. Qed.

(** Whatever the text, the loop ends. *)
Lemma deserialize_ends sep : forall fuel s arr, (List.length s < fuel)%nat -> deserialize fuel s sep arr <> Loop.
Proof.
  assert (A : forall s, atoi s <> Loop).
  { intros s. unfold atoi. destruct (to_bytes s); [|discriminate]. rewrite c_atoi_eq.
    destruct (skip_space (upto_nul l)); [discriminate|]. unfold int_result.
    repeat match goal with |- (if ?b then _ else _) <> _ => destruct b end; discriminate. }
  induction fuel as [|fuel IH]; intros s arr Hf; [lia|]. cbn [deserialize].
  pose proof (find_ch_spec s sep 0) as S. destruct (tx_find_ch s sep 0 false) as [[|k]|].
  - destruct (atoi s) eqn:E; cbn [bind]; try discriminate. exfalso; exact (A s E).
  - destruct (atoi (map _ _)) eqn:E; cbn [bind]; try discriminate; [|exfalso; exact (A _ E)].
    apply IH. destruct S as (_ & S & _). apply at_pos_lt in S. unfold delete.
    replace (0 <? nlen s) with true by lia. cbn [N.to_nat firstn app]. rewrite skipn_length. unfold nlen in S. lia.
  - destruct (atoi s) eqn:E; cbn [bind]; try discriminate. exfalso; exact (A s E).
Qed.

Lemma replace1_ok s c : nlen s < two64 -> replace1 s c = Ok (filter (fun x => negb (x =? c)) s).
Proof.
  intros H. unfold replace1. rewrite C35_single; [|change (1 + nlen []) with 1; lia|lia]. f_equal.
  induction s as [|x s IH]; [reflexivity|]. cbn [flat_map filter]. rewrite nlen_cons in H.
  rewrite IH by lia. destruct (x =? c); reflexivity.
Qed.
Lemma filter_id (f : N -> bool) s : (forall c, In c s -> f c = true) -> filter f s = s.
Proof.
  induction s as [|x s IH]; intros H; [reflexivity|]. cbn [filter]. rewrite H by (left; reflexivity).
  f_equal. apply IH. intros c Hc. apply H. right. exact Hc.
Qed.
Lemma filter_length_le (f : N -> bool) s : (List.length (filter f s) <= List.length s)%nat.
Proof. induction s as [|x s IH]; cbn [filter List.length]; [lia|]. destruct (f x); cbn [List.length]; lia. Qed.
Lemma int_piece sep z : ~ digit sep -> sep <> 45 -> sint32 z -> piece sep (int_text z) z.
Proof.
  intros H1 H2 Hz. split; [apply int_text_chars|]. split; [apply int_text_notin; assumption|]. apply atoi_int_text, Hz.
Qed.
Lemma int_pieces sep : ~ digit sep -> sep <> 45 -> forall l, Forall sint32 l -> Forall2 (piece sep) (map int_text l) l.
Proof. intros H1 H2. induction 1; cbn [map]; constructor; [apply int_piece; assumption|assumption]. Qed.

Lemma join_chars (P : N -> Prop) sep : P sep -> forall ps, Forall (Forall P) ps -> Forall P (join_with [sep] ps).
Proof.
  intros Hs. induction 1 as [|p ps Hp F IH]; [constructor|]. destruct ps as [|p' ps]; [exact Hp|].
  change (join_with [sep] (p :: p' :: ps)) with (p ++ [sep] ++ join_with [sep] (p' :: ps)).
  apply Forall_app. split; [exact Hp|]. apply Forall_app. split; [constructor; [exact Hs|constructor]|exact IH].
Qed.
Definition list_char (c : N) : Prop := digit c \/ c = 45 \/ c = 44.
Lemma list_chars l : Forall list_char (join_with [44] (map int_text l)).
Proof.
  apply join_chars; [right; right; reflexivity|]. induction l as [|z l IH]; cbn [map]; constructor; [|exact IH].
  eapply Forall_impl; [|apply int_text_chars]. unfold list_char. cbv beta. tauto.
Qed.
Lemma join_nonempty l : l <> [] -> join_with [44] (map int_text l) <> [].
Proof.
  destruct l as [|z l]; [congruence|]. intros _. cbn [map]. destruct (int_text_chars z) as [_ H].
  destruct (map int_text l); cbn [join_with]; [exact H|]. destruct (int_text z); [congruence|discriminate].
Qed.

(** ** C41: integer lists *)
(** A non-empty list of 32-bit integers, written with or without braces, is appended unchanged to the
    receiving array. *)
Theorem C41_list_roundtrip : forall l br arr, l <> [] -> Forall sint32 l ->
  nlen (write_list l br) < two64 ->
  read_list arr (write_list l br) = Ok (mkRd (arr ++ l) true 0).
Proof.
  intros l br arr Hne F Hlen. unfold read_list.
  assert (W : write_list l br = (if br then [123] else []) ++ join_with [44] (map int_text l) ++ (if br then [125] else []))
    by (destruct br; reflexivity).
  set (j := join_with [44] (map int_text l)) in *.
  assert (Cj : forall c, In c j -> c <> 123 /\ c <> 125).
  { intros c Hc. pose proof (list_chars l) as L. rewrite Forall_forall in L. specialize (L c Hc).
    unfold list_char, digit in L. lia. }
  assert (En : is_empty (write_list l br) = false).
  { rewrite W. destruct br; [reflexivity|]. cbn [app]. rewrite app_nil_r.
    pose proof (join_nonempty l Hne) as J. fold j in J. destruct j; [congruence|reflexivity]. }
  rewrite En. rewrite replace1_ok by exact Hlen. cbn [bind].
  assert (F1 : filter (fun x => negb (x =? 123)) (write_list l br) = j ++ (if br then [125] else [])).
  { rewrite W, !filter_app.
    rewrite (filter_id (fun x => negb (x =? 123)) j) by (intros c Hc; specialize (Cj c Hc); lia).
    destruct br; reflexivity. }
  rewrite F1. rewrite replace1_ok.
  2:{ eapply N.le_lt_trans; [|exact Hlen]. rewrite W, !nlen_app. lia. }
  cbn [bind]. rewrite filter_app.
  rewrite (filter_id (fun x => negb (x =? 125)) j) by (intros c Hc; specialize (Cj c Hc); lia).
  assert (filter (fun x => negb (x =? 125)) (if br then [125] else []) = []) as -> by (destruct br; reflexivity).
  rewrite app_nil_r. unfold j. rewrite deser_join with (zs := l).
  - reflexivity.
  - apply int_pieces; [unfold digit; lia|lia|exact F].
  - destruct l; [congruence|discriminate].
Qed.
Print Assumptions C41_list_roundtrip.
Example C41_case : Forall sint32 [3; -2147483648; 0]%Z /\ write_list [3; -2147483648; 0]%Z true = T"{3,-2147483648,0}"
  /\ read_list [7]%Z T"{3,-2147483648,0}" = Ok (mkRd [7; 3; -2147483648; 0]%Z true 0).
Proof. split; [repeat (apply Forall_cons; [unfold sint32; lia|]); apply Forall_nil|vm_compute; split; reflexivity]. Qed.
(** Reading always ends. *)
Theorem C41_reading_ends : forall arr s, nlen s < two64 -> read_list arr s <> Loop.
Proof.
  intros arr s H. unfold read_list. destruct (is_empty s); [discriminate|].
  rewrite replace1_ok by exact H. cbn [bind]. rewrite replace1_ok.
  2:{ eapply N.le_lt_trans; [|exact H]. unfold nlen. pose proof (filter_length_le (fun x => negb (x =? 123)) s). lia. }
  cbn [bind]. unfold deser.
  destruct (deserialize _ _ _ _) eqn:E; cbn [bind]; try discriminate. exfalso. eapply deserialize_ends; [|exact E]. lia.
Qed.
Print Assumptions C41_reading_ends.
(** The empty list does not survive: in braces it is read as [0], without braces as "no list". *)
Theorem C41_empty_list_refuted : exists br, read_list [] (write_list [] br) <> Ok (mkRd [] true 0)
  /\ read_list [] (write_list [] br) = Ok (mkRd [0%Z] true 0).
Proof. exists true. split; [vm_compute; discriminate|vm_compute; reflexivity]. Qed.
Print Assumptions C41_empty_list_refuted.
(** An empty element ends the list: the elements after it are lost. *)
Theorem C41_empty_element_refuted : exists s, read_list [] s = Ok (mkRd [1; 0]%Z true 0) /\ s = T"1,,2,3".
Proof. eexists. split; [|reflexivity]. vm_compute. reflexivity. Qed.
Print Assumptions C41_empty_element_refuted.

(** ** C45: channel byte offsets *)
(** Offsets as they are meant to be given: coarse first, no gaps. *)
Definition offsets_ok (o : N * N * N * N) : Prop :=
  let '(a, b, c, d) := o in
  a < 65536 /\ b < 65536 /\ c < 65536 /\ d < 65536 /\ 0 < a /\ (b = 0 -> c = 0) /\ (c = 0 -> d = 0).
Lemma u16_small v : v < 65536 -> to_unsigned 16 (Z.of_N v) = v.
Proof. intros H. apply to_unsigned_small. exact H. Qed.
Lemma sint32_N v : v < 65536 -> sint32 (Z.of_N v).
Proof. unfold sint32. lia. Qed.
Lemma short_list l : (List.length l <= 4)%nat -> Forall (fun z => exists v, v < 65536 /\ z = Z.of_N v) l ->
  nlen (write_list l false) < two64.
Proof.
  intros H F. unfold write_list. cbn [app]. rewrite app_nil_r.
  assert (L5 : forall v, v < 65536 -> nlen (int_text (Z.of_N v)) <= 64).
  { intros v Hv. unfold int_text. replace (Z.of_N v <? 0)%Z with false by lia. rewrite N2Z.id.
    unfold dec. destruct (dec_loop_spec (N.to_nat (N.size v)) v []) as (ds & E & _); [rewrite N2Nat.id; apply N.size_gt|].
    assert (G : forall f n acc, nlen (dec_loop f n acc) <= N.of_nat f + nlen acc).
    { induction f as [|f IH]; intros n acc; cbn [dec_loop]; [lia|]. cbv zeta.
      destruct (n / 10 =? 0); [rewrite nlen_cons; lia|]. specialize (IH (n / 10) ((48 + n mod 10) :: acc)).
      rewrite nlen_cons in IH. lia. }
    specialize (G (S (N.to_nat (N.size v))) v []). rewrite nlen_nil in G.
    assert (N.size v <= 16). { destruct (N.eq_dec v 0) as [->|Hz]; [cbn; lia|]. rewrite N.size_log2 by lia.
      assert (N.log2 v < 16) by (apply N.log2_lt_pow2; [lia|exact Hv]). lia. }
    lia. }
  assert (J : forall ps, Forall (fun p => nlen p <= 64) ps -> nlen (join_with [44] ps) <= 65 * nlen ps).
  { induction 1 as [|p ps Hp F' IH]; [cbn; lia|]. destruct ps as [|p' ps].
    - cbn [join_with]. rewrite nlen_cons, nlen_nil. lia.
    - change (join_with [44] (p :: p' :: ps)) with (p ++ [44] ++ join_with [44] (p' :: ps)).
      rewrite !nlen_app. change (nlen [44]) with 1. rewrite (nlen_cons p). lia. }
  specialize (J (map int_text l)).
  assert (nlen (map int_text l) <= 4). { unfold nlen. rewrite map_length. lia. }
  assert (nlen (join_with [44] (map int_text l)) <= 65 * nlen (map int_text l)).
  { apply J. clear - F L5. induction F as [|z l (v & Hv & ->) F IH]; cbn [map]; constructor; auto. }
  change (T",") with [44]. unfold two64. lia.
Qed.
Theorem C45_offset_roundtrip : forall o, offsets_ok o -> read_offset (write_offset o) = Ok (mkRd o true 0).
Proof.
  intros [[[a b] c] d] (Ha & Hb & Hc & Hd & Pa & Pb & Pc). unfold read_offset, write_offset.
  cbn [fold_left fst snd]. replace (0 <? a) with true by lia. cbn [andb fst snd app].
  assert (G : forall l, l <> [] -> (List.length l <= 4)%nat -> Forall (fun v => v < 65536) l ->
    read_list [] (write_list (map Z.of_N l) false) = Ok (mkRd (map Z.of_N l) true 0)).
  { intros l H1 H2 H3. rewrite C41_list_roundtrip.
    - reflexivity.
    - destruct l; [congruence|discriminate].
    - clear -H3. induction H3; cbn [map]; constructor; auto using sint32_N.
    - apply short_list; [rewrite map_length; exact H2|]. clear -H3. induction H3; cbn [map]; constructor; eauto. }
  destruct (0 <? b) eqn:Eb.
  - cbn [andb fst snd app]. destruct (0 <? c) eqn:Ec.
    + cbn [andb fst snd app]. destruct (0 <? d) eqn:Ed; cbn [andb fst snd app].
      * change [Z.of_N a; Z.of_N b; Z.of_N c; Z.of_N d] with (map Z.of_N [a; b; c; d]).
        rewrite G; [|discriminate|cbn; lia|repeat (apply Forall_cons; [assumption|]); apply Forall_nil].
        cbn [bind rd_ok rd_val map nth_error]. rewrite !u16_small by assumption. reflexivity.
      * change [Z.of_N a; Z.of_N b; Z.of_N c] with (map Z.of_N [a; b; c]).
        rewrite G; [|discriminate|cbn; lia|repeat (apply Forall_cons; [assumption|]); apply Forall_nil].
        cbn [bind rd_ok rd_val map nth_error]. rewrite !u16_small by assumption. do 3 f_equal. lia.
    + cbn [andb fst snd app]. change [Z.of_N a; Z.of_N b] with (map Z.of_N [a; b]).
      rewrite G; [|discriminate|cbn; lia|repeat (apply Forall_cons; [assumption|]); apply Forall_nil].
      cbn [bind rd_ok rd_val map nth_error]. rewrite !u16_small by assumption.
      assert (c = 0) by lia. assert (d = 0) by auto. subst. reflexivity.
  - cbn [andb fst snd app]. change [Z.of_N a] with (map Z.of_N [a]).
    rewrite G; [|discriminate|cbn; lia|repeat (apply Forall_cons; [assumption|]); apply Forall_nil].
    cbn [bind rd_ok rd_val map nth_error]. rewrite !u16_small by assumption.
    assert (b = 0) by lia. assert (c = 0) by auto. assert (d = 0) by auto. subst. reflexivity.
Qed.
Print Assumptions C45_offset_roundtrip.
Example C45_case : offsets_ok (3, 4, 0, 0) /\ write_offset (3, 4, 0, 0) = T"3,4"
  /\ read_offset T"3,4" = Ok (mkRd (3, 4, 0, 0) true 0).
Proof. split; [cbn; lia|]. vm_compute. split; reflexivity. Qed.
(** A fine byte after a gap is lost: offsets (3, 0, 5, 0) are written as "3". *)
Theorem C45_gap_refuted : exists o, read_offset (write_offset o) <> Ok (mkRd o true 0)
  /\ read_offset (write_offset o) = Ok (mkRd (3, 0, 0, 0) true 0).
Proof. exists (3, 0, 5, 0). split; [vm_compute; discriminate|vm_compute; reflexivity]. Qed.
Print Assumptions C45_gap_refuted.
(** More than four bytes, and values outside 16 bits, are cut without an error. *)
Theorem C45_silent_cut_refuted : exists s, s = T"65537,-1,3,4,5" /\ read_offset s = Ok (mkRd (1, 65535, 3, 4) true 0).
Proof. eexists. split; [reflexivity|]. vm_compute. reflexivity. Qed.
Print Assumptions C45_silent_cut_refuted.
