(** Properties C13 (one reply per connection), C71 (file buffers are deleted once) and C72 (what the client accepts). *)
From Coq Require Import List NArith ZArith String Bool Lia.
From Coq Require Import ZifyN ZifyNat ZifyBool.
From Verif Require Import Bytes BytesProofs Txt UtfModel NumModel JsonModel MessageModel MessageProps PacketModel PacketProofs SessionModel SessionProofs SessionProofs2.
Import ListNotations.
Open Scope N_scope.

(** ** C13. One reply per connection *)
(** The bytes begin with a complete well-formed package of type [ty] and body [body]. *)
Definition package (rc : list N) (ty : N) (body : list N) : Prop :=
  exists ve nu co rest, fields_ok ve nu co ty (nlen body) /\ rc = wire_header pkg_flag ve nu co ty (nlen body) ++ body ++ rest.
Definition over (p : phase) : Prop := p = Closed \/ p = Crashed.
Definition data_only (l : list net_event) : Prop := forall e, In e l -> exists c, e = Data c true.

(** At most one call and at most one reply; a call only for the message of a complete package, and the reply is
    the encoded answer of the handler. *)
Theorem C13_once : forall wraps handler files v p l, packet_new v = Ok p -> bytes_ok (received l) ->
  let s := run_session wraps handler files p l in
  (nCalls s = [] /\ nReplies s = []) \/
  exists m ty body, nCalls s = [m] /\ package (received l) ty body /\ to_external wraps ty body fresh = ORet m
    /\ (nReplies s = [] \/ exists r q, handler m = Some r /\ from_external files r = EOk q /\ nReplies s = [q]).
Proof.
  intros wraps handler files v p l Hp B. destruct (packet_new_fresh v) as (p' & Hp' & Fr & _). rewrite Hp in Hp'. injection Hp' as <-.
  cbv zeta. destruct (run_cases wraps handler files p l Fr B) as [W|[J|C]].
  - left. destruct W as (_ & C & R & _). now split.
  - destruct J as (pre & suf & al & w & E & V & Nw & M).
    assert (Hj : forall ty body ve nu co rest, pre = wire_header pkg_flag ve nu co ty (nlen body) ++ body ++ rest -> fields_ok ve nu co ty (nlen body) -> package (received l) ty body).
    { intros ty body ve nu co rest Ep O. exists ve, nu, co, (rest ++ suf). split; [exact O|]. rewrite E, Ep, <- !app_assoc. reflexivity. }
    inversion V; subst w; try congruence; try (destruct M as [(P & C & R)|(m & q & Ev & _)]; [now left|discriminate]).
    unfold judge in M. specialize (Hj _ _ _ _ _ _ H H0). destruct (to_external wraps ty body fresh) as [m|x m|] eqn:Et.
    2,3: destruct M as [(P & C & R)|(m' & q & Ev & _)]; [now left|discriminate].
    destruct al. 2: destruct M as [(P & C & R)|(m' & q & Ev & _)]; [now left|discriminate].
    destruct (handler m) as [r|] eqn:Eh.
    + destruct (from_external files r) as [q|x|] eqn:Ef.
      * right. exists m, ty, body. destruct M as [(P & C & R)|(m' & q' & Ev & P & C & R)].
        -- split; [exact C|]. split; [exact Hj|]. split; [exact Et|]. right. exists r, q. now repeat split.
        -- injection Ev as <- <-. split; [exact C|]. split; [exact Hj|]. split; [exact Et|]. right. exists r, q. now repeat split.
      * destruct M as [(P & C & R)|(m' & q & Ev & _)]; [|discriminate]. right. exists m, ty, body. repeat (split; [assumption|]). now left.
      * destruct M as [(P & C & R)|(m' & q & Ev & _)]; [|discriminate]. right. exists m, ty, body. repeat (split; [assumption|]). now left.
    + destruct M as [(P & C & R)|(m' & q & Ev & _)]; [|discriminate]. right. exists m, ty, body. repeat (split; [assumption|]). now left.
  - left. destruct C as (_ & C & R). now split.
Qed.
Print Assumptions C13_once.

(** An error on the socket (or the end of the write) always ends the session, and nothing happens after that. *)
Lemma set_phase_phase s q : nPhase (set_phase s q) = q.
Proof. reflexivity. Qed.
Theorem C13_ends : forall wraps handler files p l, over (nPhase (run_session wraps handler files p (l ++ [Failed; Sent]))).
Proof.
  intros. change [Failed; Sent] with ([Failed] ++ [Sent]). rewrite app_assoc, !run_snoc. set (s := run_session wraps handler files p l).
  unfold over. destruct (nPhase s) eqn:E; unfold on_net at 2; rewrite E; unfold on_net; rewrite ?set_phase_phase, ?E; cbn [nPhase set_phase]; auto.
Qed.
Print Assumptions C13_ends.
Theorem C13_over_is_final : forall wraps handler files p l l', over (nPhase (run_session wraps handler files p l)) ->
  run_session wraps handler files p (l ++ l') = run_session wraps handler files p l.
Proof.
  intros wraps handler files p l l' H. induction l' as [|e l' IH] using rev_ind; [now rewrite app_nil_r|].
  rewrite app_assoc, run_snoc, IH. now apply closed_stays.
Qed.
Print Assumptions C13_over_is_final.

(** How the bytes are cut into chunks does not matter. *)
Definition shape (p : phase) : N := match p with WaitHeader | WaitBody _ => 0 | Sending => 1 | Closed => 2 | Crashed => 3 end.
Lemma data_only_cases wraps handler files p l : fresh_buf (pdata p) -> bytes_ok (received l) -> data_only l ->
  exists v, stream_verdict wraps handler files (received l) true v /\ matches (run_session wraps handler files p l) v
    /\ (v = VWait -> waiting p (received l) (run_session wraps handler files p l)).
Proof.
  intros Fr. induction l as [|e l IH] using rev_ind; intros B D.
  - exists VWait. split; [apply sv_short; reflexivity|]. split; [cbn; auto|]. intros _. apply start_waiting.
  - destruct (D e) as [c ->]; [apply in_app_iff; right; now left|].
    rewrite received_snoc, run_snoc in *. pose proof B as B'. apply Forall_app in B' as [B1 _].
    destruct IH as (v & V & M & W); [exact B1|intros x Hx; apply D; apply in_app_iff; now left|].
    destruct v as [| |cs|m q].
    + destruct (data_step wraps handler files p Fr _ _ c true (W eq_refl) B) as (v' & V' & M' & W'). exists v'. split; [exact V'|]. split; [exact M'|exact W'].
    + destruct (pump_header_step wraps handler files p Fr (mkSession WaitHeader (received l ++ c) p [] []) (received l ++ c) true) as (v' & V' & _); auto.
      assert (Nw := verdict_mono _ _ _ _ _ _ _ _ V (fun Q => ltac:(discriminate Q)) V'); rewrite <- Nw in V'; clear Nw. exists VClosed. split; [exact V'|]. split; [|discriminate].
      rewrite closed_stays by (left; apply M). exact M.
    + destruct (pump_header_step wraps handler files p Fr (mkSession WaitHeader (received l ++ c) p [] []) (received l ++ c) true) as (v' & V' & _); auto.
      assert (Nw := verdict_mono _ _ _ _ _ _ _ _ V (fun Q => ltac:(discriminate Q)) V'); rewrite <- Nw in V'; clear Nw. exists (VCrashed cs). split; [exact V'|]. split; [|discriminate].
      rewrite closed_stays by (right; apply M). exact M.
    + destruct (pump_header_step wraps handler files p Fr (mkSession WaitHeader (received l ++ c) p [] []) (received l ++ c) true) as (v' & V' & _); auto.
      assert (Nw := verdict_mono _ _ _ _ _ _ _ _ V (fun Q => ltac:(discriminate Q)) V'); rewrite <- Nw in V'; clear Nw. exists (VReply m q). split; [exact V'|]. split; [|discriminate].
      unfold on_net. rewrite (proj1 M). exact M.
Qed.
Lemma matches_det s s' v : matches s v -> matches s' v -> nCalls s = nCalls s' /\ nReplies s = nReplies s' /\ shape (nPhase s) = shape (nPhase s').
Proof.
  destruct v; cbn; [intros ([Q|[? Q]] & C & R) ([Q'|[? Q']] & C' & R')|intros (Q & C & R) (Q' & C' & R')..]; rewrite Q, Q', C, C', R, R'; auto.
Qed.
Theorem C13_chunks : forall wraps handler files v p l l', packet_new v = Ok p -> bytes_ok (received l) ->
  data_only l -> data_only l' -> received l = received l' ->
  let s := run_session wraps handler files p l in let s' := run_session wraps handler files p l' in
  nCalls s = nCalls s' /\ nReplies s = nReplies s' /\ shape (nPhase s) = shape (nPhase s').
Proof.
  intros wraps handler files v p l l' Hp B D D' E. destruct (packet_new_fresh v) as (p' & Hp' & Fr & _). rewrite Hp in Hp'. injection Hp' as <-.
  cbv zeta. destruct (data_only_cases wraps handler files p l Fr B D) as (w & V & M & _).
  destruct (data_only_cases wraps handler files p l' Fr) as (w' & V' & M' & _); [now rewrite <- E|exact D'|].
  rewrite <- E in V'. assert (w = w').
  { destruct w; [destruct w'; [reflexivity|..]; symmetry|..];
    (eapply (verdict_mono wraps handler files (received l) []); [eassumption|discriminate|rewrite app_nil_r; eassumption]). }
  subst w'. eapply matches_det; eassumption.
Qed.
Print Assumptions C13_chunks.

(** A complete package within the limit of C04 is answered, however it is cut and whatever follows it. *)
Theorem C13_answered : forall wraps handler files v p l ty body m r q, packet_new v = Ok p -> bytes_ok (received l) -> data_only l ->
  package (received l) ty body -> nlen body <= recv_limit ->
  to_external wraps ty body fresh = ORet m -> handler m = Some r -> from_external files r = EOk q ->
  let s := run_session wraps handler files p l in
  nPhase s = Sending /\ nCalls s = [m] /\ nReplies s = [q]
  /\ nPhase (run_session wraps handler files p (l ++ [Sent])) = Closed.
Proof.
  intros wraps handler files v p l ty body m r q Hp B D (ve & nu & co & rest & O & E) L Et Eh Ef. destruct (packet_new_fresh v) as (p' & Hp' & Fr & _). rewrite Hp in Hp'. injection Hp' as <-.
  cbv zeta. destruct (data_only_cases wraps handler files p l Fr B D) as (w & V & M & _).
  assert (VJ : stream_verdict wraps handler files (received l) true (judge wraps handler files ty body true)).
  { eapply sv_whole; [exact E|exact O| |]; unfold capacity, recv_limit, max_alloc, header_len, prealloc, two64 in *; [lia|]. destruct (_ =? _); lia. }
  assert (Ew : w = judge wraps handler files ty body true).
  { symmetry. eapply (verdict_mono wraps handler files (received l) []); [exact VJ|apply judge_not_wait|rewrite app_nil_r; exact V]. }
  unfold judge in Ew. rewrite Et, Eh, Ef in Ew. subst w. destruct M as (P & C & R). split; [exact P|]. split; [exact C|]. split; [exact R|].
  rewrite run_snoc. unfold on_net. rewrite P. reflexivity.
Qed.
Print Assumptions C13_answered.
(** As long as the package is incomplete nothing is called and nothing sent: the session waits. *)
Theorem C13_incomplete_waits : forall wraps handler files v p l more ty body, packet_new v = Ok p -> bytes_ok (received l) -> data_only l ->
  nlen body <= recv_limit -> more <> [] -> (exists ve nu co, fields_ok ve nu co ty (nlen body) /\ received l ++ more = wire_header pkg_flag ve nu co ty (nlen body) ++ body) ->
  let s := run_session wraps handler files p l in
  nCalls s = [] /\ nReplies s = [] /\ shape (nPhase s) = 0.
Proof.
  intros wraps handler files v p l more ty body Hp B D L Nm (ve & nu & co & O & E). destruct (packet_new_fresh v) as (p' & Hp' & Fr & _). rewrite Hp in Hp'. injection Hp' as <-.
  cbv zeta. destruct (data_only_cases wraps handler files p l Fr B D) as (w & V & M & _).
  assert (VW : stream_verdict wraps handler files (received l) true VWait).
  { destruct (N.lt_ge_cases (nlen (received l)) 28) as [Ls|Ls]; [now apply sv_short|].
    assert (Ep : received l = wire_header pkg_flag ve nu co ty (nlen body) ++ skipn 28 (received l)).
    { rewrite <- (firstn_skipn 28 (received l)) at 1. f_equal. apply (f_equal (firstn 28)) in E.
      rewrite firstn_app in E. replace (28 - List.length (received l))%nat with 0%nat in E by (unfold nlen in Ls; lia). rewrite firstn_O, app_nil_r in E.
      rewrite E. rewrite firstn_app, wire_header_length, Nat.sub_diag, firstn_O, app_nil_r. apply firstn_all2. rewrite wire_header_length. lia. }
    assert (Lr : nlen (skipn 28 (received l)) < nlen body).
    { apply (f_equal nlen) in E. rewrite !nlen_app, nlen_wire_header in E. destruct more; [congruence|]. unfold nlen in *. cbn [List.length] in E. rewrite skipn_length. lia. }
    eapply sv_part; [exact Ep|exact O| | |exact Lr]; unfold capacity, recv_limit, max_alloc, header_len, prealloc, two64 in *; [lia|]. destruct (_ =? _); lia. }
  assert (w = VWait).
  { destruct w; [reflexivity|..]; (eapply (verdict_mono wraps handler files (received l) []); [exact V|discriminate|rewrite app_nil_r; exact VW]). }
  subst w. destruct M as ([P|[q P]] & C & R); rewrite P; auto.
Qed.
Print Assumptions C13_incomplete_waits.
(** Every way to a crash: a length no buffer can have, a body beyond the buffer (C04), or a complete package whose
    decoding throws, whose peer has left, whose handler throws or whose answer cannot be encoded. *)
Theorem C13_crash_causes : forall wraps handler files v p l, packet_new v = Ok p -> bytes_ok (received l) ->
  nPhase (run_session wraps handler files p l) = Crashed ->
  exists ve nu co ty bo rest, fields_ok ve nu co ty bo /\ received l = wire_header pkg_flag ve nu co ty bo ++ rest /\
    (recv_limit < bo \/ exists body rest', rest = body ++ rest' /\ nlen body = bo /\
      ((forall m, to_external wraps ty body fresh <> ORet m) \/ (exists c, In (Data c false) l) \/
       exists m, to_external wraps ty body fresh = ORet m /\ (handler m = None \/ exists r, handler m = Some r /\ forall q, from_external files r <> EOk q))).
Proof.
  intros wraps handler files v p l Hp B. destruct (packet_new_fresh v) as (p' & Hp' & Fr & _). rewrite Hp in Hp'. injection Hp' as <-.
  induction l as [|e l IH] using rev_ind; [discriminate|]. rewrite received_snoc in *. pose proof B as B'. apply Forall_app in B' as [B1 B2].
  rewrite run_snoc. destruct (run_cases wraps handler files p l Fr B1) as [W|[J|C]].
  - destruct e as [c al| |].
    2,3: destruct (waiting_phase _ _ _ W) as [Ph|[q Ph]]; unfold on_net; rewrite Ph; cbn; try rewrite Ph; discriminate.
    destruct (data_step wraps handler files p Fr _ (received l) c al W B) as (w & V & M & _). intros P.
    inversion V; subst w; cbn in M; try (destruct M as [M1 M2]; rewrite P in M1; try discriminate; destruct M1 as [M1|[? M1]]; discriminate).
    + exists ve, nu, co, ty, bo, rest. split; [assumption|]. split; [assumption|]. left. unfold recv_limit, max_alloc, two64 in *. lia.
    + exists ve, nu, co, ty, bo, rest. split; [assumption|]. split; [assumption|]. left.
      unfold capacity, recv_limit, max_alloc, prealloc, header_len, two64 in *. destruct (bo =? _) eqn:Q; [|]; lia.
    + exists ve, nu, co, ty, (nlen body), (body ++ rest). split; [assumption|]. split; [assumption|]. right. exists body, rest. split; [reflexivity|]. split; [reflexivity|].
      unfold judge in M. destruct (to_external wraps ty body fresh) as [m|x m|]; [|left; discriminate|left; discriminate].
      right. destruct al; [|left; exists c; apply in_app_iff; right; now left]. right. exists m. split; [reflexivity|].
      destruct (handler m) as [r|]; [|now left]. right. exists r. split; [reflexivity|]. intros q Eq. rewrite Eq in M. destruct M as [M _]. congruence.
  - assert (K : over (nPhase (run_session wraps handler files p l)) \/ nPhase (run_session wraps handler files p l) = Sending).
    { destruct J as (pre & suf & al & w & E & V & Nw & [M|(m & q & Ev & P & _)]); [|left; now left]. destruct w; [contradiction|..]; destruct M as [M _]; [left; now left|left; now right|now right]. }
    destruct K as [K|K].
    + rewrite closed_stays by exact K. intros P. destruct (IH B1 P) as (ve & nu & co & ty & bo & rest & O & E & H).
      exists ve, nu, co, ty, bo, (rest ++ match e with Data c _ => c | _ => [] end). split; [exact O|]. split; [rewrite E; apply app_assoc_reverse|].
      destruct H as [H|(body & rest' & Er & Nb & H)]; [now left|]. right. exists body, (rest' ++ match e with Data c _ => c | _ => [] end).
      split; [rewrite Er; apply app_assoc_reverse|]. split; [exact Nb|]. destruct H as [H|[[c H]|H]]; [now left| |right; now right].
      right. left. exists c. apply in_app_iff. now left.
    + destruct (sending_step wraps handler files _ e K) as [-> | ->]; [congruence|discriminate].
  - rewrite closed_stays by (left; apply C). destruct C as [C _]. congruence.
Qed.
Print Assumptions C13_crash_causes.

(** A case: a JOIN request in three chunks with bytes of a second package behind it. *)
Definition echo (m : msg) : option msg := Some (set_type MJoinRet m).
Definition join_body : list N := match from_external (fun _ => []) join_ex with EOk (_, b) => b | _ => [] end.
Definition join_wire : list N := wire_header pkg_flag 1 0 1 0 (nlen join_body) ++ join_body.
Definition join_chunks : list net_event := [Data (firstn 10 join_wire) true; Data [] true; Data (firstn 100 (skipn 10 join_wire)) true; Data (skipn 110 join_wire ++ [1; 2; 3]) true].
Example C13_case : exists m r q, data_only join_chunks /\ package (received join_chunks) 0 join_body /\ nlen join_body <= recv_limit
  /\ to_external true 0 join_body fresh = ORet m /\ echo m = Some r /\ from_external (fun _ => []) r = EOk q /\ (nlen join_body =? 0) = false.
Proof.
  destruct (to_external true 0 join_body fresh) as [m|x m|] eqn:E; [|vm_compute in E; discriminate|vm_compute in E; discriminate].
  exists m, (set_type MJoinRet m). destruct (from_external (fun _ => []) (set_type MJoinRet m)) as [q|x|] eqn:Eq.
  2,3: exfalso; vm_compute in E; injection E as <-; vm_compute in Eq; discriminate.
  exists q. split; [|split; [|split; [|split; [|split; [|split]]]]].
  - intros e [<-|[<-|[<-|[<-|[]]]]]; eexists; reflexivity.
  - exists 1, 0, 1, [1; 2; 3]. split; [repeat split; vm_compute; reflexivity|]. vm_compute. reflexivity.
  - vm_compute. discriminate.
  - reflexivity.
  - reflexivity.
  - reflexivity.
  - vm_compute. reflexivity.
Qed.

(** A peer that sends nothing keeps the session open: there is no time limit. *)
Theorem C13_closes_refuted : forall wraps handler files p n, nPhase (run_session wraps handler files p (repeat (Data [] true) n)) = WaitHeader.
Proof.
  intros wraps handler files p n. assert (H : run_session wraps handler files p (repeat (Data [] true) n) = start p).
  { induction n as [|n IH]; [reflexivity|]. change (S n) with (1 + n)%nat. rewrite Nat.add_comm, repeat_app. cbn [repeat]. rewrite run_snoc, IH. reflexivity. }
  now rewrite H.
Qed.
Print Assumptions C13_closes_refuted.
(** A peer that sends the body {"Type":1} ends the program. *)
Lemma crash_when wraps handler files v p ty body : packet_new v = Ok p -> ty < two32 -> bytes_ok body -> nlen body <= recv_limit ->
  (exists l, judge wraps handler files ty body true = VCrashed l) ->
  nPhase (run_session wraps handler files p [Data (wire_header pkg_flag 1 0 1 ty (nlen body) ++ body) true]) = Crashed.
Proof.
  intros Hp Ht Hb L (cs & J). destruct (packet_new_fresh v) as (p' & Hp' & Fr & _). rewrite Hp in Hp'. injection Hp' as <-.
  set (l := [Data _ true]). assert (El : received l = wire_header pkg_flag 1 0 1 ty (nlen body) ++ body) by apply app_nil_r.
  assert (O : fields_ok 1 0 1 ty (nlen body)) by (repeat split; try assumption; try reflexivity; unfold recv_limit, two64 in *; lia).
  assert (B : bytes_ok (received l)).
  { rewrite El. apply Forall_app. split; [|exact Hb]. unfold wire_header. repeat match goal with |- Forall _ (_ ++ _) => apply Forall_app; split end; apply be_bytes_ok. }
  destruct (data_only_cases wraps handler files p l Fr B) as (w & V & M & _); [intros e [<-|[]]; eexists; reflexivity|].
  assert (VJ : stream_verdict wraps handler files (received l) true (judge wraps handler files ty body true)).
  { apply (sv_whole _ _ _ _ _ 1 0 1 ty body []); [rewrite app_nil_r; exact El|exact O| |]; unfold capacity, recv_limit, max_alloc, header_len, prealloc, two64 in *; [lia|]. destruct (_ =? _); lia. }
  assert (Ew : w = judge wraps handler files ty body true).
  { symmetry. eapply (verdict_mono wraps handler files (received l) []); [exact VJ|apply judge_not_wait|rewrite app_nil_r; exact V]. }
  rewrite J in Ew. subst w. apply M.
Qed.
Theorem C13_bad_type_crash_refuted : exists body, forall handler files v p, packet_new v = Ok p ->
  nPhase (run_session true handler files p [Data (wire_header pkg_flag 1 0 1 0 (nlen body) ++ body) true]) = Crashed.
Proof.
  exists (T"{""Type"":1}"). intros handler files v p Hp. eapply crash_when; [exact Hp|reflexivity| |apply N.leb_le; vm_compute; reflexivity|].
  - apply (proj2 (Forall_forall _ _)). assert (F : forallb (fun x => x <? 256) (T"{""Type"":1}") = true) by (vm_compute; reflexivity).
    rewrite forallb_forall in F. intros x Hx. apply N.ltb_lt. exact (F x Hx).
  - exists []. vm_compute. reflexivity.
Qed.
Print Assumptions C13_bad_type_crash_refuted.
(** Without a callback the answer has no type, and the first good message ends the program. *)
Definition join_msg : msg := match to_external true 0 join_body fresh with ORet m => m | _ => fresh end.
Lemma join_msg_eq : to_external true 0 join_body fresh = ORet join_msg.
Proof. vm_compute. reflexivity. Qed.
Theorem C13_no_callback_crash_refuted : exists body m, to_external true 0 body fresh = ORet m /\ mOk m = true /\ mType m = MJoin /\
  forall files v p, packet_new v = Ok p ->
  nPhase (run_session true (fun _ => Some fresh) files p [Data (wire_header pkg_flag 1 0 1 0 (nlen body) ++ body) true]) = Crashed.
Proof.
  exists join_body, join_msg. split; [exact join_msg_eq|]. split; [vm_compute; reflexivity|]. split; [vm_compute; reflexivity|].
  intros files v p Hp. apply (crash_when _ _ _ v p 0 join_body Hp).
  - reflexivity.
  - apply (proj2 (Forall_forall _ _)). assert (F : forallb (fun x => x <? 256) join_body = true) by (vm_compute; reflexivity).
    rewrite forallb_forall in F. intros x Hx. apply N.ltb_lt. exact (F x Hx).
  - apply N.leb_le. vm_compute. reflexivity.
  - exists [join_msg]. unfold judge. rewrite join_msg_eq. rewrite C06_no_type_refuted by now left. reflexivity.
Qed.
Print Assumptions C13_no_callback_crash_refuted.
