(** Properties C71 (the buffer of a file is deleted once) and C72 (what the client takes as a reply). *)
From Coq Require Import List NArith ZArith String Bool Lia.
From Coq Require Import ZifyN ZifyNat ZifyBool.
From Verif Require Import Bytes BytesProofs Txt UtfModel NumModel JsonModel MessageModel MessageProps PacketModel PacketProofs SessionModel SessionProofs SessionProofs2 SessionProps.
Import ListNotations.
Open Scope N_scope.

(** ** C71. The buffer of a file *)
Lemma delete_other h a x : x <> a -> In x h -> exists h', delete_buffer h (Some a) = (if existsb (Nat.eqb a) h then NumModel.Ok h' else NumModel.UB) /\ In x h'.
Proof.
  intros N H. exists (filter (fun x => negb (Nat.eqb a x)) h). split; [reflexivity|]. apply filter_In. split; [exact H|].
  destruct (Nat.eqb_spec a x); [congruence|reflexivity].
Qed.
(** Deleting a live buffer removes it and nothing else. *)
Lemma delete_live h a : In a h -> exists h', delete_buffer h (Some a) = NumModel.Ok h' /\ ~ In a h' /\ forall x, x <> a -> (In x h' <-> In x h).
Proof.
  intros H. exists (filter (fun x => negb (Nat.eqb a x)) h). unfold delete_buffer.
  assert (E : existsb (Nat.eqb a) h = true) by (apply existsb_exists; exists a; split; [exact H|apply Nat.eqb_refl]). rewrite E. split; [reflexivity|]. split.
  - intros K. apply filter_In in K as [_ K]. now rewrite Nat.eqb_refl in K.
  - intros x Nx. rewrite filter_In. destruct (Nat.eqb_spec a x); [congruence|]. cbn. tauto.
Qed.
Lemma delete_dead h a : ~ In a h -> delete_buffer h (Some a) = NumModel.UB.
Proof.
  intros H. unfold delete_buffer. destruct (existsb (Nat.eqb a) h) eqn:E; [|reflexivity].
  apply existsb_exists in E as (x & Hx & Q). apply Nat.eqb_eq in Q. now subst.
Qed.
(** Sending a message other than a successful file reply deletes its buffer, exactly once, and no other. *)
Theorem C71_send_once_partial : forall h t ok a, In a h -> t <> MRequestRet \/ ok = false ->
  exists h', send_deletes h t ok (Some a) = NumModel.Ok h' /\ ~ In a h' /\ forall x, x <> a -> (In x h' <-> In x h).
Proof.
  intros h t ok a H Ht. unfold send_deletes. assert (E : encode_deletes h t ok (Some a) = NumModel.Ok h).
  { unfold encode_deletes. destruct t; try reflexivity. destruct ok; [destruct Ht; congruence|reflexivity]. }
  rewrite E. cbn [NumModel.bind]. now apply delete_live.
Qed.
Print Assumptions C71_send_once_partial.
(** Sending a successful file reply that owns a buffer always deletes it twice. *)
Theorem C71_send_twice_refuted : forall h a, In a h -> send_deletes h MRequestRet true (Some a) = NumModel.UB.
Proof.
  intros h a H. unfold send_deletes, encode_deletes. destruct (delete_live h a H) as (h' & -> & N & _). cbn [NumModel.bind]. now apply delete_dead.
Qed.
Print Assumptions C71_send_twice_refuted.
(** The server frees the received buffer, and that of the reply exactly when the reply is a successful file reply. *)
Theorem C71_reply : forall h i t ok a, In i h -> In a h -> i <> a ->
  exists h', reply_deletes h (Some i) t ok (Some a) = NumModel.Ok h' /\ ~ In i h' /\ (In a h' <-> ~ (t = MRequestRet /\ ok = true))
    /\ forall x, x <> a -> x <> i -> (In x h' <-> In x h).
Proof.
  intros h i t ok a Hi Ha N. unfold reply_deletes. destruct (delete_live h i Hi) as (h1 & -> & N1 & K1). cbn [NumModel.bind].
  assert (Ha1 : In a h1) by (apply K1; [congruence|exact Ha]).
  assert (C : encode_deletes h1 t ok (Some a) = NumModel.Ok h1 /\ ~ (t = MRequestRet /\ ok = true) \/ encode_deletes h1 t ok (Some a) = delete_buffer h1 (Some a) /\ t = MRequestRet /\ ok = true).
  { unfold encode_deletes. destruct t; try (left; split; [reflexivity|intros [? ?]; congruence]). destruct ok; [right; auto|left; split; [reflexivity|intros [? ?]; congruence]]. }
  destruct C as [[-> Ht]|(-> & Ht)].
  - exists h1. split; [reflexivity|]. split; [exact N1|]. split; [tauto|]. intros x _ Nx. now apply K1.
  - destruct (delete_live h1 a Ha1) as (h2 & -> & N2 & K2). exists h2. split; [reflexivity|]. split.
    + intros Q. apply N1. apply K2; [exact N|exact Q].
    + split; [tauto|]. intros x Na Ni. rewrite K2 by exact Na. now apply K1.
Qed.
Print Assumptions C71_reply.
(** So a failed reply that carries a buffer leaves it allocated for good. *)
Theorem C71_leak_refuted : exists h t ok h', reply_deletes h None t ok (Some 7%nat) = NumModel.Ok h' /\ In 7%nat h'.
Proof. exists [7%nat], MRequestRet, false. eexists. split; [reflexivity|]. now left. Qed.
Print Assumptions C71_leak_refuted.
Example C71_case : In 3%nat [1; 3; 5]%nat /\ send_deletes [1; 3; 5]%nat MCommit true (Some 3%nat) = NumModel.Ok [1; 5]%nat
  /\ reply_deletes [1; 3; 5]%nat (Some 3%nat) MRequestRet true (Some 5%nat) = NumModel.Ok [1]%nat.
Proof. split; [right; now left|]. split; reflexivity. Qed.

(** ** C72. What the client takes as a reply *)
Section Client.
Variables (v : N) (p : packet).
Hypothesis New : packet_new v = Ok p.
Lemma new_fresh : fresh_buf (pdata p) /\ ptype p = 0 /\ pbody p = 0.
Proof.
  destruct (packet_new_fresh v) as (p' & Hp' & Fr & _ & _ & _ & _ & T0 & B0). rewrite New in Hp'. injection Hp' as <-. auto.
Qed.
Lemma client_split fl ve nu co ty bo rest :
  client_read p (wire_header fl ve nu co ty bo ++ rest) =
  bind (bind (recv_header p (wire_header fl ve nu co ty bo)) decode_header) (fun r =>
  bind (recv_body (snd r) (firstn (N.to_nat (N.min (pbody (snd r)) (nlen rest))) rest)) (fun p' => Ok (pbody (snd r) <=? nlen rest, p'))).
Proof.
  unfold client_read. rewrite nlen_app, nlen_wire_header. replace (28 + nlen rest <? header_len) with false by (unfold header_len; lia).
  change (N.to_nat header_len) with 28%nat. rewrite firstn_app, wire_header_length, Nat.sub_diag, firstn_O, app_nil_r, firstn_all2 by (rewrite wire_header_length; lia).
  rewrite skipn_app, wire_header_length, Nat.sub_diag, skipn_all2 by (rewrite wire_header_length; lia). reflexivity.
Qed.
Lemma C72_reply_s ve nu co ty body rest : fields_ok ve nu co ty (nlen body) -> nlen body <= recv_limit ->
  exists q, client_read p (wire_header pkg_flag ve nu co ty (nlen body) ++ body ++ rest) = Ok (true, q) /\ ptype q = ty /\ get_body q = Ok (map Some body).
Proof.
  intros O L. destruct new_fresh as (Fr & _). rewrite client_split.
  destruct (header_step p pkg_flag ve nu co ty (nlen body) Fr eq_refl O) as (_ & _ & H3).
  destruct H3 as (q & b & -> & Hb & Hs & Ht & Hbo); [reflexivity|unfold recv_limit, max_alloc in *; lia|].
  cbn [bind snd]. rewrite Hbo, nlen_app, N.min_l by lia. unfold nlen at 1. rewrite Nat2N.id, firstn_app, Nat.sub_diag, firstn_O, app_nil_r, firstn_all.
  destruct (body_step q b body Hb) as [_ B2].
  destruct B2 as (q' & -> & Tq & _ & Gq). { rewrite Hs. unfold capacity, recv_limit, prealloc, header_len, two64 in *. destruct (_ =? _); lia. }
  cbn [bind]. replace (nlen body <=? nlen body + nlen rest) with true by lia. exists q'. split; [reflexivity|]. split; [congruence|]. apply Gq. congruence.
Qed.
Lemma C72_incomplete_s ve nu co ty bo rest : fields_ok ve nu co ty bo -> bo <= recv_limit -> nlen rest < bo ->
  exists q, client_read p (wire_header pkg_flag ve nu co ty bo ++ rest) = Ok (false, q).
Proof.
  intros O L Lr. destruct new_fresh as (Fr & _). rewrite client_split.
  destruct (header_step p pkg_flag ve nu co ty bo Fr eq_refl O) as (_ & _ & H3).
  destruct H3 as (q & b & -> & Hb & Hs & Ht & Hbo); [reflexivity|unfold recv_limit, max_alloc in *; lia|].
  cbn [bind snd]. rewrite Hbo, N.min_r by lia. set (l := firstn _ rest). assert (Ll : nlen l = nlen rest) by (unfold l, nlen; rewrite firstn_length; lia).
  destruct (body_step q b l Hb) as [_ B2].
  destruct B2 as (q' & -> & _). { rewrite Hs, Ll. unfold capacity, recv_limit, prealloc, header_len, two64 in *. destruct (_ =? _); lia. }
  cbn [bind]. replace (bo <=? nlen rest) with false by lia. eexists. reflexivity.
Qed.
Lemma C72_foreign_s fl ve nu co ty bo rest : fl < two32 -> fields_ok ve nu co ty bo -> fl <> pkg_flag ->
  exists q, client_read p (wire_header fl ve nu co ty bo ++ rest) = Ok (true, q) /\ ptype q = 0 /\ get_body q = Ok [].
Proof.
  intros F O N. destruct new_fresh as (Fr & T0 & B0). rewrite client_split.
  destruct (fb_block _ Fr) as [b [Hb Hs]]. destruct (blk_write_ok b 0 (wire_header fl ve nu co ty bo)) as [b1 [W S1]].
  { rewrite nlen_wire_header, Hs. unfold prealloc. lia. }
  set (p1 := set_data p (set_block (pdata p) b1)).
  assert (E1 : recv_header p (wire_header fl ve nu co ty bo) = Ok p1) by (unfold recv_header, with_block; rewrite Hb, W; reflexivity).
  rewrite E1. cbn [bind]. rewrite (decode_wire p1 b1 b _ _ _ _ _ _ eq_refl W F O).
  replace (fl =? pkg_flag) with false by lia. cbn [bind snd pbody set_fields]. change (pbody p1) with (pbody p). rewrite B0.
  rewrite N.min_0_l. change (N.to_nat 0) with 0%nat. rewrite firstn_O.
  match goal with |- context [recv_body ?x []] => destruct (body_step x b1 [] eq_refl) as [_ B2] end.
  destruct B2 as (q' & -> & Tq & Bq & Gq). { rewrite S1, Hs. unfold prealloc, header_len. cbn. lia. }
  cbn [bind]. replace (0 <=? nlen rest) with true by lia. exists q'. split; [reflexivity|]. split; [rewrite Tq; exact T0|]. apply Gq. reflexivity.
Qed.
End Client.
(** A complete reply is taken over exactly. *)
Theorem C72_reply : forall v p ve nu co ty body rest, packet_new v = Ok p -> fields_ok ve nu co ty (nlen body) -> nlen body <= recv_limit ->
  exists q, client_read p (wire_header pkg_flag ve nu co ty (nlen body) ++ body ++ rest) = Ok (true, q) /\ ptype q = ty /\ get_body q = Ok (map Some body).
Proof. intros. eapply C72_reply_s; eassumption. Qed.
Print Assumptions C72_reply.
(** An incomplete one is refused. *)
Theorem C72_incomplete : forall v p s, packet_new v = Ok p ->
  nlen s < 28 \/ (exists ve nu co ty bo rest, fields_ok ve nu co ty bo /\ bo <= recv_limit /\ nlen rest < bo /\ s = wire_header pkg_flag ve nu co ty bo ++ rest) ->
  exists q, client_read p s = Ok (false, q).
Proof.
  intros v p s New [H|(ve & nu & co & ty & bo & rest & O & L & Lr & ->)]; [|eapply C72_incomplete_s; eassumption].
  exists p. unfold client_read. replace (nlen s <? header_len) with true by (unfold header_len; lia). reflexivity.
Qed.
Print Assumptions C72_incomplete.
Example C72_case : fields_ok 1 0 1 0 (nlen join_body) /\ nlen join_body <= recv_limit.
Proof. split; [repeat split; vm_compute; reflexivity|apply N.leb_le; vm_compute; reflexivity]. Qed.
(** Bytes of some other protocol are taken as a successful reply with an empty body: the refusal of the header
    (C02) is not looked at. *)
Theorem C72_foreign_taken_refuted : forall v p fl ve nu co ty bo rest, packet_new v = Ok p -> fl < two32 -> fields_ok ve nu co ty bo -> fl <> pkg_flag ->
  exists q, client_read p (wire_header fl ve nu co ty bo ++ rest) = Ok (true, q) /\ ptype q = 0 /\ get_body q = Ok [].
Proof. intros. eapply C72_foreign_s; eassumption. Qed.
Print Assumptions C72_foreign_taken_refuted.
(** It reaches the caller as a message without a type. *)
Theorem C72_foreign_message_refuted : exists m, to_external true 0 [] fresh = ORet m /\ mType m = MUndefined.
Proof. eexists. split; [vm_compute; reflexivity|reflexivity]. Qed.
Print Assumptions C72_foreign_message_refuted.
