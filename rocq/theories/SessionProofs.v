(** Lemmas about SessionModel. *)
From Coq Require Import List NArith ZArith String Bool Lia.
From Coq Require Import ZifyN ZifyNat ZifyBool.
From Verif Require Import Bytes BytesProofs Txt UtfModel NumModel JsonModel MessageModel MessageProps PacketModel PacketProofs SessionModel.
Import ListNotations.
Open Scope N_scope.

(** ** The packet while it receives *)
(** Bytes the buffer can take after a header announcing [bo]. *)
Definition capacity (bo : N) : N := if bo =? two64 - 1 then prealloc else N.max prealloc (bo + 1).
Lemma header_step p fl ve nu co ty bo : fresh_buf (pdata p) -> fl < two32 -> fields_ok ve nu co ty bo ->
  (fl <> pkg_flag -> exists q, bind (recv_header p (wire_header fl ve nu co ty bo)) decode_header = Ok (false, q)) /\
  (fl = pkg_flag -> max_alloc <= bo < two64 - 1 -> bind (recv_header p (wire_header fl ve nu co ty bo)) decode_header = Throws) /\
  (fl = pkg_flag -> bo < max_alloc \/ bo = two64 - 1 -> exists q b, bind (recv_header p (wire_header fl ve nu co ty bo)) decode_header = Ok (true, q)
     /\ dbuf (pdata q) = Some b /\ bsize b = capacity bo /\ ptype q = ty /\ pbody q = bo).
Proof.
  intros F Hf Hok. destruct (fb_block _ F) as [b [Hb Hs]].
  destruct (blk_write_ok b 0 (wire_header fl ve nu co ty bo)) as [b1 [W S1]].
  { rewrite nlen_wire_header, Hs. unfold prealloc. lia. }
  set (p1 := set_data p (set_block (pdata p) b1)).
  assert (E1 : recv_header p (wire_header fl ve nu co ty bo) = Ok p1).
  { unfold recv_header, with_block. rewrite Hb, W. reflexivity. }
  assert (F1 : fresh_buf (pdata p1)) by (apply fresh_set_block; [exact F|congruence]).
  assert (Hb1 : dbuf (pdata p1) = Some b1) by reflexivity.
  rewrite E1. cbn [bind]. rewrite (decode_wire p1 b1 b _ _ _ _ _ _ Hb1 W Hf Hok).
  assert (Bo : bo < two64) by (destruct Hok as (_ & _ & _ & _ & Q); exact Q).
  destruct (N.eqb_spec fl pkg_flag) as [Ef|Ef].
  - split; [congruence|]. split.
    + intros _ [L1 L2]. unfold grow_to. rewrite (fb_alloc _ F1).
      rewrite (N.mod_small (bo + 1)) by (unfold two64 in *; lia).
      destruct (N.ltb_spec prealloc (bo + 1)) as [_|C]; [|unfold prealloc, max_alloc in *; lia].
      destruct (N.ltb_spec max_alloc (bo + 1)) as [_|C]; [|lia]. reflexivity.
    + intros _ H. unfold capacity. destruct (N.eqb_spec bo (two64 - 1)) as [Em|Nm].
      * rewrite grow_to_noop by (rewrite Em; change ((two64 - 1 + 1) mod two64) with 0; lia). cbn [bind].
        eexists. exists b1. split; [reflexivity|]. cbn [pdata set_data set_fields ptype pbody]. repeat split; auto. congruence.
      * destruct H as [H|H]; [|congruence].
        destruct (grow_fresh (pdata p1) bo F1) as (d & b2 & G & Hd & Hs2 & Ha2 & Hget); [unfold max_alloc in *; lia|].
        rewrite G. cbn [bind]. eexists. exists b2. split; [reflexivity|]. cbn [pdata set_data set_fields ptype pbody]. repeat split; auto.
  - split; [intros _; eexists; reflexivity|]. split; congruence.
Qed.
Lemma body_step p b l : dbuf (pdata p) = Some b ->
  (bsize b < header_len + nlen l -> recv_body p l = OutOfBounds) /\
  (header_len + nlen l <= bsize b -> exists q, recv_body p l = Ok q /\ ptype q = ptype p /\ pbody q = pbody p
     /\ (nlen l = pbody p -> get_body q = Ok (map Some l))).
Proof.
  intros Hb. unfold recv_body, with_block. rewrite Hb. split.
  - intros H. rewrite blk_write_oob by exact H. reflexivity.
  - intros H. destruct (blk_write_ok b header_len l) as [b' [W S]]; [exact H|]. rewrite W. cbn [bind]. eexists. split; [reflexivity|].
    cbn [ptype pbody set_data]. repeat split. intros E. unfold get_body, with_block. cbn [pdata set_data set_block dbuf pbody].
    rewrite <- E. unfold nlen. rewrite Nat2N.id. eapply blk_read_write_all. exact W.
Qed.

(** ** The session as a function of the bytes that arrived *)
Section S.
Variable wraps : bool.
Variable handler : msg -> option msg.
Variable files : list N -> list N.
Variable p0 : packet.
Hypothesis Fresh : fresh_buf (pdata p0).

(** What is done with a complete package. *)
Inductive verdict := VWait | VClosed | VCrashed (calls : list msg) | VReply (m : msg) (q : N * list N).
Definition judge (ty : N) (body : list N) (alive : bool) : verdict :=
  match to_external wraps ty body fresh with
  | ORet m => if alive then
      match handler m with
      | None => VCrashed [m]
      | Some r => match from_external files r with EOk q => VReply m q | _ => VCrashed [m] end
      end else VCrashed []
  | _ => VCrashed []
  end.
Definition matches (s : session) (v : verdict) : Prop :=
  match v with
  | VWait => (nPhase s = WaitHeader \/ exists p, nPhase s = WaitBody p) /\ nCalls s = [] /\ nReplies s = []
  | VClosed => nPhase s = Closed /\ nCalls s = [] /\ nReplies s = []
  | VCrashed l => nPhase s = Crashed /\ nCalls s = l /\ nReplies s = []
  | VReply m q => nPhase s = Sending /\ nCalls s = [m] /\ nReplies s = [q]
  end.
(** The state after the bytes [rc], when it is still waiting. *)
Definition waiting (rc : list N) (s : session) : Prop :=
  nPacket s = p0 /\ nCalls s = [] /\ nReplies s = [] /\
  match nPhase s with
  | WaitHeader => nInbox s = rc /\ nlen rc < 28
  | WaitBody p => exists ve nu co ty bo b, fields_ok ve nu co ty bo /\ rc = wire_header pkg_flag ve nu co ty bo ++ nInbox s
      /\ (bo < max_alloc \/ bo = two64 - 1) /\ nlen (nInbox s) < bo /\ header_len + nlen (nInbox s) <= capacity bo
      /\ dbuf (pdata p) = Some b /\ bsize b = capacity bo /\ ptype p = ty /\ pbody p = bo
  | _ => False
  end.
(** The verdict on the bytes [rc], directly on the stream. *)
Inductive stream_verdict (rc : list N) (alive : bool) : verdict -> Prop :=
| sv_short : nlen rc < 28 -> stream_verdict rc alive VWait
| sv_foreign fl ve nu co ty bo rest : rc = wire_header fl ve nu co ty bo ++ rest -> fl < two32 -> fields_ok ve nu co ty bo -> fl <> pkg_flag ->
    stream_verdict rc alive VClosed
| sv_throws ve nu co ty bo rest : rc = wire_header pkg_flag ve nu co ty bo ++ rest -> fields_ok ve nu co ty bo -> max_alloc <= bo < two64 - 1 ->
    stream_verdict rc alive (VCrashed [])
| sv_over ve nu co ty bo rest : rc = wire_header pkg_flag ve nu co ty bo ++ rest -> fields_ok ve nu co ty bo -> bo < max_alloc \/ bo = two64 - 1 ->
    capacity bo < header_len + N.min bo (nlen rest) -> stream_verdict rc alive (VCrashed [])
| sv_part ve nu co ty bo rest : rc = wire_header pkg_flag ve nu co ty bo ++ rest -> fields_ok ve nu co ty bo -> bo < max_alloc \/ bo = two64 - 1 ->
    header_len + nlen rest <= capacity bo -> nlen rest < bo -> stream_verdict rc alive VWait
| sv_whole ve nu co ty body rest : rc = wire_header pkg_flag ve nu co ty (nlen body) ++ body ++ rest -> fields_ok ve nu co ty (nlen body) ->
    nlen body < max_alloc -> header_len + nlen body <= capacity (nlen body) -> stream_verdict rc alive (judge ty body alive).

Lemma on_message_matches s p ty body alive : nCalls s = [] -> nReplies s = [] -> ptype p = ty -> get_body p = Ok (map Some body) ->
  matches (on_message wraps handler files s p alive) (judge ty body alive) /\ nPacket (on_message wraps handler files s p alive) = nPacket s.
Proof.
  intros C R Ty G. unfold on_message, judge. rewrite G, all_some_map, Ty. fold fresh.
  destruct (to_external wraps ty body fresh) as [m|w m|]; cbn; auto. destruct alive; cbn; auto. destruct (handler m) as [r|]; cbn; [|rewrite C; auto].
  destruct (from_external files r) as [q|w|]; cbn; rewrite C, ?R; auto.
Qed.
Lemma pump_body_step s p rc alive ve nu co ty bo b : nPacket s = p0 -> nCalls s = [] -> nReplies s = [] ->
  fields_ok ve nu co ty bo -> rc = wire_header pkg_flag ve nu co ty bo ++ nInbox s -> bo < max_alloc \/ bo = two64 - 1 ->
  dbuf (pdata p) = Some b -> bsize b = capacity bo -> ptype p = ty -> pbody p = bo ->
  exists v, stream_verdict rc alive v /\ matches (pump_body wraps handler files s p alive) v
    /\ (v = VWait -> waiting rc (pump_body wraps handler files s p alive)).
Proof.
  intros P C R Hok E L Hb Hs Ht Hbo. unfold pump_body. rewrite Hbo.
  assert (Cap : capacity bo < header_len + bo \/ bo < max_alloc).
  { destruct L as [L|L]; [now right|]. left. unfold capacity. rewrite L, N.eqb_refl. unfold prealloc, header_len, two64. lia. }
  set (l := firstn (N.to_nat (N.min bo (nlen (nInbox s)))) (nInbox s)).
  assert (Ll : nlen l = N.min bo (nlen (nInbox s))) by (unfold l, nlen; rewrite firstn_length; lia).
  destruct (body_step p b l Hb) as [B1 B2].
  destruct (N.lt_ge_cases (capacity bo) (header_len + nlen l)) as [H|H].
  - rewrite B1 by (rewrite Hs; exact H). exists (VCrashed []). split; [|split; [cbn; auto|discriminate]].
    eapply sv_over; try eassumption. now rewrite <- Ll.
  - destruct B2 as (q & -> & Tq & Bq & Gq); [rewrite Hs; exact H|]. destruct (N.leb_spec bo (nlen (nInbox s))) as [Lb|Lb].
    + assert (El : l = firstn (N.to_nat bo) (nInbox s)) by (unfold l; rewrite N.min_l by exact Lb; reflexivity).
      assert (Nl : nlen l = bo) by (rewrite Ll; now rewrite N.min_l).
      set (s' := mkSession _ _ _ _ _).
      destruct (on_message_matches s' q ty l alive) as [M _]; [exact C|exact R|congruence|apply Gq; congruence|].
      exists (judge ty l alive). split; [|split; [exact M|]].
      * rewrite <- Nl in Hok, E, H, Cap. apply (sv_whole rc alive ve nu co ty l (skipn (N.to_nat (nlen l)) (nInbox s))).
        -- rewrite E at 1. f_equal. rewrite Nl, El. symmetry. apply firstn_skipn.
        -- exact Hok.
        -- destruct Cap as [Cap|Cap]; [lia|exact Cap].
        -- exact H.
      * unfold judge. destruct (to_external _ _ _ _); try discriminate. destruct alive; [|discriminate]. destruct (handler _); [|discriminate]. destruct (from_external _ _); discriminate.
    + assert (Nl : nlen l = nlen (nInbox s)) by (rewrite Ll; lia).
      exists VWait. split; [eapply sv_part; try eassumption; now rewrite <- Nl|]. split.
      * cbn. split; [right; now exists p|auto].
      * intros _. split; [exact P|]. split; [exact C|]. split; [exact R|]. cbn [nPhase set_phase nInbox].
        exists ve, nu, co, ty, bo, b. rewrite <- Nl at 2. repeat (split; [assumption|]). assumption.
Qed.
Lemma pump_header_step s rc alive : nPacket s = p0 -> nCalls s = [] -> nReplies s = [] -> nPhase s = WaitHeader -> nInbox s = rc -> bytes_ok rc ->
  exists v, stream_verdict rc alive v /\ matches (pump_header wraps handler files s alive) v
    /\ (v = VWait -> waiting rc (pump_header wraps handler files s alive)).
Proof.
  intros P C R Ph I B. unfold pump_header. rewrite I. destruct (N.ltb_spec (nlen rc) header_len) as [L|L].
  - exists VWait. split; [now apply sv_short|]. split; [cbn; auto|]. intros _. split; [exact P|]. split; [exact C|]. split; [exact R|]. rewrite Ph. now split.
  - rewrite P. set (h := firstn (N.to_nat header_len) rc).
    assert (Er : rc = h ++ skipn (N.to_nat header_len) rc) by (symmetry; apply firstn_skipn).
    destruct (split_header h) as (fl & ve & nu & co & ty & bo & Eh & Hf & Hok & _).
    { unfold bytes_ok in *. rewrite Er in B. now apply Forall_app in B. }
    { unfold h. rewrite firstn_length_le; [reflexivity|]. unfold nlen, header_len in *. lia. }
    rewrite Eh in *. destruct (header_step p0 fl ve nu co ty bo Fresh Hf Hok) as (H1 & H2 & H3).
    destruct (N.eq_dec fl pkg_flag) as [Ef|Ef].
    + destruct (N.lt_ge_cases bo max_alloc) as [Lb|Lb]; [|destruct (N.eq_dec bo (two64 - 1)) as [Lm|Lm]].
      1: assert (Lq : bo < max_alloc \/ bo = two64 - 1) by now left.
      2: assert (Lq : bo < max_alloc \/ bo = two64 - 1) by now right.
      3: { rewrite H2; auto; [|destruct Hok as (_ & _ & _ & _ & Q); lia]. exists (VCrashed []). split; [|split; [cbn; auto|discriminate]].
           subst fl. eapply sv_throws; try eassumption. destruct Hok as (_ & _ & _ & _ & Q); lia. }
      all: destruct (H3 Ef Lq) as (q & b & -> & Hb & Hs & Ht & Hbo); subst fl; eapply pump_body_step; try eassumption; try reflexivity; try assumption.
    + destruct (H1 Ef) as (q & ->). exists VClosed. split; [eapply sv_foreign; eassumption|]. split; [cbn; auto|discriminate].
Qed.
(** A waiting session that gets more bytes gives the verdict on all bytes. *)
Lemma data_step s rc c alive : waiting rc s -> bytes_ok (rc ++ c) ->
  exists v, stream_verdict (rc ++ c) alive v /\ matches (on_net wraps handler files s (Data c alive)) v
    /\ (v = VWait -> waiting (rc ++ c) (on_net wraps handler files s (Data c alive))).
Proof.
  intros (P & C & R & W) B. unfold on_net. destruct (nPhase s) as [|p| | |] eqn:Ph; try contradiction.
  - destruct W as [I L]. apply pump_header_step; auto. cbn. now rewrite I.
  - destruct W as (ve & nu & co & ty & bo & b & Hok & E & L & _ & _ & Hb & Hs & Ht & Hbo).
    eapply pump_body_step; try eassumption. cbn [nInbox]. rewrite app_assoc. now rewrite E.
Qed.
End S.
