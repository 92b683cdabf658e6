(** Property C26: integrity check of a buffer. *)
From Coq Require Import List NArith ZArith Lia Bool String.
From Coq Require Import ZifyN ZifyNat ZifyBool.
From Verif Require Import Bytes BytesProofs Txt UtfSpec UtfModel UtfProofs StringModel StringSpec StringProofs
  ShaModel ShaSpec ShaProofs ShaProps HashModel.
Import ListNotations.
Open Scope N_scope.
Open Scope list_scope.
Ltac Zify.zify_post_hook ::= Z.div_mod_to_equations.

Lemma hex_digit_ascii v : v < 16 -> hex_digit v < 128 /\ hex_digit v <> 0 /\ to_lower (hex_digit v) = hex_digit v.
Proof. intros H. unfold hex_digit, to_lower. destruct (v <? 10) eqn:E; (split; [lia|split; [lia|]]);
  replace (_ && _) with false by lia; reflexivity. Qed.
Lemma hex_digit_inj v w : v < 16 -> w < 16 -> hex_digit v = hex_digit w -> v = w.
Proof. unfold hex_digit. intros H1 H2. destruct (v <? 10) eqn:?, (w <? 10) eqn:?; lia. Qed.

Lemma hex_facts l : bytes_ok l ->
  Forall (fun c => c < 128) (hex l) /\ ~ In 0 (hex l) /\ make_lower (hex l) = hex l.
Proof.
  intros H. unfold hex. induction H as [|b l Hb H (IH1 & IH2 & IH3)]; [repeat split; [constructor|intros []]|].
  unfold byte_ok in Hb. cbn [map List.concat app].
  destruct (hex_digit_ascii (b / 16)) as (A1 & A2 & A3); [lia|].
  destruct (hex_digit_ascii (b mod 16)) as (B1 & B2 & B3); [lia|].
  split; [now repeat apply Forall_cons|]. split.
  - intros [C|[C|C]]; [congruence|congruence|tauto].
  - unfold make_lower in *. cbn [map List.concat app]. now rewrite A3, B3, IH3.
Qed.
Lemma hex_inj : forall a b, bytes_ok a -> bytes_ok b -> hex a = hex b -> a = b.
Proof.
  unfold hex. induction a as [|x a IH]; intros [|y b] Ha Hb E; try discriminate; [reflexivity|].
  inversion_clear Ha as [|? ? Hx Ha']. inversion_clear Hb as [|? ? Hy Hb']. unfold byte_ok in *.
  cbn [map List.concat app] in E. injection E as E1 E2 E3. apply hex_digit_inj in E1, E2; try lia.
  f_equal; [lia|now apply IH].
Qed.
Lemma sha256_bytes m : bytes_ok (sha256 m).
Proof.
  unfold sha256. induction (hash_words m) as [|w l IH]; [constructor|]. cbn [map List.concat].
  apply bytes_ok_app. split; [apply be_bytes_ok|assumption].
Qed.

Section one_object.
Context (extra raw : list N) (Lx : List.length extra = 64%nat) (Lr : List.length raw = 64%nat).

Lemma create_hash_ok m : bytes_ok m -> nlen m < max_bytes -> create_hash extra raw m = Some (hex (sha256 m)).
Proof.
  intros Hm Hn. unfold create_hash.
  destruct (C23_sha256_correct extra m (reset raw) Lx) as (s' & E); [exact Lr|assumption..|].
  rewrite E. destruct (hex_facts (sha256 m) (sha256_bytes m)) as (F & Z & _).
  unfold set_from_chars. rewrite upto_nul_id by assumption. now apply from_bytes_ascii.
Qed.
End one_object.

(** C26. The stored checksum is the hexadecimal digest; checking the buffer against it succeeds. *)
Theorem C26_own_checksum : forall extra raw extra' raw' m,
  List.length extra = 64%nat -> List.length raw = 64%nat -> List.length extra' = 64%nat -> List.length raw' = 64%nat ->
  bytes_ok m -> nlen m < max_bytes ->
  exists c, create_hash_for_buffer extra raw m = Some c /\ c = hex (sha256 m)
    /\ check_hash_for_buffer extra' raw' m c = Some true.
Proof.
  intros extra raw extra' raw' m L1 L2 L3 L4 Hm Hn. exists (hex (sha256 m)).
  destruct (hex_facts (sha256 m) (sha256_bytes m)) as (F & Z & _). split; [|split; [reflexivity|]].
  - unfold create_hash_for_buffer. rewrite create_hash_ok by assumption. rewrite to_bytes_ascii by assumption.
    f_equal. rewrite firstn_app, firstn_all, Nat.sub_diag. apply app_nil_r.
  - unfold check_hash_for_buffer. rewrite create_hash_ok by assumption. unfold set_from_chars.
    rewrite upto_nul_id by assumption. rewrite from_bytes_ascii by assumption. f_equal. now apply txeq_iff.
Qed.
Print Assumptions C26_own_checksum.

(** Whatever is stored: the check succeeds exactly if the stored bytes, up to the first zero byte and up
    to the case of ASCII letters, are the hexadecimal digest of the buffer (otherwise it fails, or the
    decoding of the stored bytes throws). *)
Theorem C26_check_iff : forall extra raw m stored,
  List.length extra = 64%nat -> List.length raw = 64%nat -> bytes_ok m -> nlen m < max_bytes ->
  (check_hash_for_buffer extra raw m stored = Some true
   <-> map ascii_lower (upto_nul stored) = hex (sha256 m)).
Proof.
  intros extra raw m stored L1 L2 Hm Hn. unfold check_hash_for_buffer. rewrite create_hash_ok by assumption.
  destruct (hex_facts (sha256 m) (sha256_bytes m)) as (F & Z & Hl). unfold set_from_chars.
  assert (A : forall l, map ascii_lower l = hex (sha256 m) -> Forall (fun c => c < 128) l).
  { intros l E. rewrite <- E in F. clear - F. induction l as [|c l IH]; [constructor|]. inversion_clear F as [|? ? Hc F'].
    constructor; [|now apply IH]. unfold ascii_lower in Hc. destruct (_ && _) eqn:?; lia. }
  split.
  - destruct (from_bytes (upto_nul stored)) as [t|] eqn:E; [|discriminate]. intros [= H]. apply txeq_lower in H.
    rewrite Hl in H. apply from_bytes_iff in E as (cs & Fs & E8 & E16).
    assert (Ft : Forall (fun c => c < 128) t) by now apply A.
    assert (Fc : Forall (fun c => c < 128) cs).
    { subst t. clear - Ft. induction cs as [|c cs IH]; [constructor|]. rewrite enc16_cons in Ft. apply Forall_app in Ft as [F1 F2].
      constructor; [|now apply IH]. unfold enc16_1 in F1. destruct (c <? 65536) eqn:Ec; apply Forall_inv in F1; cbv beta in F1; lia. }
    rewrite E8, enc8_ascii by assumption. rewrite E16, enc16_ascii in H by assumption. exact H.
  - intros H. rewrite from_bytes_ascii by now apply A. f_equal. apply txeq_lower. now rewrite Hl.
Qed.
Print Assumptions C26_check_iff.

(** Checking one buffer against the checksum made for another succeeds only if the digests agree. *)
Theorem C26_other_checksum : forall extra raw extra' raw' m m' c,
  List.length extra = 64%nat -> List.length raw = 64%nat -> List.length extra' = 64%nat -> List.length raw' = 64%nat ->
  bytes_ok m -> nlen m < max_bytes -> bytes_ok m' -> nlen m' < max_bytes ->
  create_hash_for_buffer extra raw m = Some c ->
  (check_hash_for_buffer extra' raw' m' c = Some true <-> sha256 m = sha256 m').
Proof.
  intros extra raw extra' raw' m m' c L1 L2 L3 L4 Hm Hn Hm' Hn' Hc.
  destruct (C26_own_checksum extra raw extra' raw' m L1 L2 L3 L4 Hm Hn) as (c' & E & Ec & _).
  rewrite E in Hc. injection Hc as <-. rewrite C26_check_iff by assumption.
  destruct (hex_facts (sha256 m) (sha256_bytes m)) as (F & Z & Hl). rewrite Ec, upto_nul_id by assumption.
  change (map ascii_lower) with make_lower. rewrite Hl. split; [|now intros ->].
  apply hex_inj; apply sha256_bytes.
Qed.
Print Assumptions C26_other_checksum.
Example C26_ex : let x := repeat 0 64 in
  create_hash_for_buffer x x (T"abc") = Some (T"ba7816bf8f01cfea414140de5dae2223b00361a396177a9cb410ff61f20015ad")
  /\ check_hash_for_buffer x x (T"abc") (T"BA7816BF8F01CFEA414140DE5DAE2223B00361A396177A9CB410FF61F20015AD") = Some true
  /\ check_hash_for_buffer x x (T"abd") (T"ba7816bf8f01cfea414140de5dae2223b00361a396177a9cb410ff61f20015ad") = Some false.
Proof. vm_compute. repeat split. Qed.
