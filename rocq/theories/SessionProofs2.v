(** Further lemmas about SessionModel: the verdict on a byte stream is unique and stable. *)
From Coq Require Import List NArith ZArith String Bool Lia.
From Coq Require Import ZifyN ZifyNat ZifyBool.
From Verif Require Import Bytes BytesProofs Txt UtfModel NumModel JsonModel MessageModel MessageProps PacketModel PacketProofs SessionModel SessionProofs.
Import ListNotations.
Open Scope N_scope.

Lemma app_inv_len {A} (a b c d : list A) : List.length a = List.length b -> a ++ c = b ++ d -> a = b /\ c = d.
Proof.
  revert b. induction a as [|x a IH]; intros [|y b] L E; try discriminate; [now split|].
  cbn in L, E. injection L as L. injection E as -> E. destruct (IH b L E) as [-> ->]. now split.
Qed.
Lemma be_head n v w a b : v < 256 ^ N.of_nat n -> w < 256 ^ N.of_nat n -> be_bytes n v ++ a = be_bytes n w ++ b -> v = w /\ a = b.
Proof.
  intros Hv Hw E. assert (L : List.length (be_bytes n v) = List.length (be_bytes n w)) by now rewrite !be_bytes_length.
  apply (app_inv_len _ _ _ _ L) in E as [E1 E2]. split; [|exact E2]. rewrite <- (be_val_bytes n v Hv), E1. now apply be_val_bytes.
Qed.
Lemma wire_header_inj fl ve nu co ty bo fl' ve' nu' co' ty' bo' r r' : fl < two32 -> fields_ok ve nu co ty bo -> fl' < two32 -> fields_ok ve' nu' co' ty' bo' ->
  wire_header fl ve nu co ty bo ++ r = wire_header fl' ve' nu' co' ty' bo' ++ r' ->
  fl = fl' /\ ty = ty' /\ bo = bo' /\ r = r'.
Proof.
  intros F (A1 & A2 & A3 & A4 & A5) F' (B1 & B2 & B3 & B4 & B5). unfold wire_header. rewrite <- !app_assoc. intros E.
  apply be_head in E as [-> E]; [|exact F|exact F']. apply be_head in E as [_ E]; [|exact A1|exact B1].
  apply be_head in E as [_ E]; [|exact A2|exact B2]. apply be_head in E as [_ E]; [|exact A3|exact B3].
  apply be_head in E as [-> E]; [|exact A4|exact B4]. apply be_head in E as [-> E]; [|exact A5|exact B5]. auto.
Qed.

Section S.
Variable wraps : bool.
Variable handler : msg -> option msg.
Variable files : list N -> list N.
Notation stream_verdict := (stream_verdict wraps handler files).
Lemma verdict_mono rc c v v' al : stream_verdict rc al v -> v <> VWait -> stream_verdict (rc ++ c) al v' -> v = v'.
Proof.
  assert (FL : pkg_flag < two32) by reflexivity.
  intros H N H'. destruct H as [L|fl ve nu co ty bo rest E F O D|ve nu co ty bo rest E O D|ve nu co ty bo rest E O D K|ve nu co ty bo rest E O D K Q|ve nu co ty body rest E O D K];
    try congruence; subst rc;
  (destruct H' as [L'|fl' ve' nu' co' ty' bo' rest' E' F' O' D'|ve' nu' co' ty' bo' rest' E' O' D'|ve' nu' co' ty' bo' rest' E' O' D' K'|ve' nu' co' ty' bo' rest' E' O' D' K' Q'|ve' nu' co' ty' body' rest' E' O' D' K'];
   [exfalso; unfold nlen in L'; rewrite !app_length, wire_header_length in L'; lia| | | | | ];
   rewrite <- app_assoc in E'; apply wire_header_inj in E' as (E1 & -> & E3 & E4); auto; try congruence;
   subst; rewrite ?nlen_app in *).
  all: try reflexivity.
  all: try (exfalso; rewrite ?nlen_app in *; lia).
  all: try (exfalso; unfold capacity, prealloc, header_len, max_alloc, two64 in *; repeat match goal with H : context [if ?b then _ else _] |- _ => destruct b eqn:? end; lia).
  rewrite <- app_assoc in E4. apply app_inv_len in E4 as [-> _]; [reflexivity|]. unfold nlen in E3. lia.
Qed.
Lemma judge_not_wait ty body al : judge wraps handler files ty body al <> VWait.
Proof.
  unfold judge. destruct (to_external _ _ _ _); try discriminate. destruct al; [|discriminate]. destruct (handler _); [|discriminate]. destruct (from_external _ _); discriminate.
Qed.

(** ** Runs *)
Definition received (l : list net_event) : list N := List.concat (map (fun e => match e with Data c _ => c | _ => [] end) l).
Lemma received_snoc l e : received (l ++ [e]) = received l ++ match e with Data c _ => c | _ => [] end.
Proof. unfold received. rewrite map_app, concat_app. cbn. now rewrite app_nil_r. Qed.
Lemma run_snoc p l e : run_session wraps handler files p (l ++ [e]) = on_net wraps handler files (run_session wraps handler files p l) e.
Proof. unfold run_session. now rewrite fold_left_app. Qed.
(** The state after any events: still waiting, or judged on a prefix of what arrived, possibly finished since. *)
Definition judged (rc : list N) (s : session) : Prop :=
  exists pre suf al v, rc = pre ++ suf /\ stream_verdict pre al v /\ v <> VWait /\
    (matches s v \/ exists m q, v = VReply m q /\ nPhase s = Closed /\ nCalls s = [m] /\ nReplies s = [q]).
Lemma start_waiting p : waiting p [] (start p).
Proof. repeat split. Qed.
Lemma waiting_phase p rc s : waiting p rc s -> nPhase s = WaitHeader \/ exists q, nPhase s = WaitBody q.
Proof. intros (_ & _ & _ & W). destruct (nPhase s); try contradiction; eauto. Qed.
Lemma closed_stays s e : nPhase s = Closed \/ nPhase s = Crashed -> on_net wraps handler files s e = s.
Proof. unfold on_net. intros [-> | ->]; destruct e; reflexivity. Qed.
Lemma sending_step s e : nPhase s = Sending -> on_net wraps handler files s e = s \/ on_net wraps handler files s e = set_phase s Closed.
Proof. unfold on_net. intros ->. destruct e; auto. Qed.
Lemma run_cases p l : fresh_buf (pdata p) -> bytes_ok (received l) ->
  let s := run_session wraps handler files p l in
  waiting p (received l) s \/ judged (received l) s \/ (nPhase s = Closed /\ nCalls s = [] /\ nReplies s = []).
Proof.
  intros Fr. induction l as [|e l IH] using rev_ind; intros B; cbv zeta.
  - left. apply start_waiting.
  - rewrite received_snoc in *. rewrite run_snoc. apply Forall_app in B as B'. destruct B' as [B1 B2]. specialize (IH B1). cbv zeta in IH.
    set (s := run_session wraps handler files p l) in *. destruct IH as [W|[J|C]].
    + destruct e as [c al| |].
      * destruct (data_step wraps handler files p Fr s (received l) c al W B) as (v & V & M & Wt).
        destruct v; [left; now apply Wt| | |]; right; left; exists (received l ++ c), [], al; eexists; rewrite app_nil_r; (split; [reflexivity|]); (split; [exact V|]); (split; [discriminate|]); now left.
      * right. right. destruct (waiting_phase _ _ _ W) as [Ph|[q Ph]]; unfold on_net; rewrite Ph; destruct W as (_ & C & R & _); cbn; auto.
      * left. rewrite app_nil_r. destruct (waiting_phase _ _ _ W) as [Ph|[q Ph]]; unfold on_net; rewrite Ph; exact W.
    + right. left. destruct J as (pre & suf & al & v & E & V & Nw & M). exists pre, (suf ++ match e with Data c _ => c | _ => [] end), al, v.
      split; [rewrite E; apply app_assoc_reverse|]. split; [exact V|]. split; [exact Nw|].
      destruct M as [M|(m & q & Ev & P & C & R)].
      * destruct v as [| |cs|m q]; [contradiction| | |].
        -- rewrite closed_stays by (left; apply M). now left.
        -- rewrite closed_stays by (right; apply M). now left.
        -- destruct M as (P & C & R). destruct (sending_step s e P) as [-> | ->]; [left; now split|]. right. exists m, q. now repeat split.
      * right. exists m, q. rewrite closed_stays by now left. now repeat split.
    + right. right. rewrite closed_stays by (left; apply C). exact C.
Qed.
End S.
