(** Properties C14 (the discovery wait) and C73 (the pause between discoveries). *)
From Coq Require Import List Bool Arith Lia.
From Verif Require Import WaitModel.
Import ListNotations.

(** ** C14. The discovery wait *)
(** [a] happens in [l], and [b] not before it. *)
Definition no_earlier (a b : wait_step) (l : list wait_step) : Prop := exists l1 l2, l = l1 ++ a :: l2 /\ ~ In b l1.
Lemma wait_run_app s l l' : wait_run s (l ++ l') = match wait_run s l with Some s' => wait_run s' l' | None => None end.
Proof. revert s. induction l as [|e l IH]; intros s; [reflexivity|]. cbn. destruct (wait_next s e); [apply IH|reflexivity]. Qed.
(** What the past says about the state. *)
Record wait_inv (l : list wait_step) (s : wait_state) : Prop := {
  wi_post : wCaller s = CPost <-> ~ In LPost l;
  wi_wait : In LWait l <-> wCaller s = CWaiting \/ wCaller s = CDone;
  wi_notify : In LNotify l <-> wWorker s = WDone;
  wi_idle : wCaller s = CPost -> wWorker s = WIdle \/ wWorker s = WStopped;
  wi_done : wCaller s = CDone -> In LSpurious l \/ no_earlier LWait LNotify l /\ In LNotify l;
  wi_lost : wCaller s = CWaiting -> wWorker s = WDone -> no_earlier LNotify LWait l;
  wi_dang : wDangling s = true -> In LSpurious l }.
Lemma no_earlier_snoc a b l e : no_earlier a b l -> no_earlier a b (l ++ [e]).
Proof. intros (l1 & l2 & -> & H). exists l1, (l2 ++ [e]). split; [now rewrite <- app_assoc|exact H]. Qed.
Lemma no_earlier_last a b l : ~ In b l -> no_earlier a b (l ++ [a]).
Proof. intros H. exists l, []. now split. Qed.
Lemma no_earlier_here a b l : In a l -> ~ In b l -> no_earlier a b l.
Proof.
  intros H N. apply in_split in H as (l1 & l2 & ->). exists l1, l2. split; [reflexivity|]. intros K. apply N. apply in_app_iff. now left.
Qed.
Lemma wait_inv_run l : forall s, wait_run wait_init l = Some s -> wait_inv l s.
Proof.
  induction l as [|e l IH] using rev_ind; intros s H.
  - injection H as <-. split; cbn; try tauto; try (split; intros K; [tauto|destruct K; discriminate]); try discriminate; split; try tauto; discriminate.
  - rewrite wait_run_app in H. destruct (wait_run wait_init l) as [s0|] eqn:E; [|discriminate]. specialize (IH s0 eq_refl).
    cbn in H. destruct (wait_next s0 e) as [s1|] eqn:En; [|discriminate]. injection H as <-.
    destruct IH as [I1 I2 I3 I4 I5 I6 I7]. destruct s0 as [c w d]. cbn [wCaller wWorker wDangling] in *.
    assert (S1 : forall x, In x (l ++ [e]) <-> In x l \/ x = e).
    { intros x. rewrite in_app_iff. cbn. intuition congruence. }
    destruct e, c, w; cbn in En; try discriminate; injection En as <-; cbn [wCaller wWorker wDangling];
    (split; cbn [wCaller wWorker wDangling]; rewrite ?S1; intros; try discriminate;
     try (intuition (try congruence; try discriminate; auto using no_earlier_snoc); fail)).
    + apply no_earlier_snoc. apply no_earlier_here; [now apply I3|]. intros K. apply I2 in K as [K|K]; discriminate.
    + right. split; [|now right]. apply no_earlier_snoc. apply no_earlier_here; [apply I2; now left|]. intros K. apply I3 in K. discriminate.
Qed.
Lemma not_both a b l : a <> b -> no_earlier a b l -> no_earlier b a l -> False.
Proof.
  intros D (l1 & l2 & -> & H) (m1 & m2 & E & K). revert m1 E K. induction l1 as [|x l1 IH]; intros [|y m1] E K; cbn in E.
  - injection E as E _. congruence.
  - injection E as -> _. apply K. now left.
  - injection E as -> _. apply H. now left.
  - injection E as -> E. apply (IH ltac:(intros Q; apply H; now right) m1 E). intros Q. apply K. now right.
Qed.
(** A caller that is already waiting when the worker notifies is woken. *)
Theorem C14_woken_partial : forall l s, wait_run wait_init l = Some s -> In LNotify l -> no_earlier LWait LNotify l -> wCaller s = CDone.
Proof.
  intros l s R N W. destruct (wait_inv_run l s R) as [I1 I2 I3 I4 I5 I6 I7].
  assert (K : In LWait l) by (destruct W as (l1 & l2 & -> & _); apply in_app_iff; right; now left).
  apply I2 in K as [K|K]; [|exact K]. exfalso. eapply (not_both LWait LNotify l); [discriminate|exact W|]. apply I6; [exact K|now apply I3].
Qed.
Print Assumptions C14_woken_partial.
(** The exact condition: the caller is left waiting for good exactly when the notification came before the wait. *)
Theorem C14_lost_iff : forall l s, wait_run wait_init l = Some s -> In LNotify l -> In LWait l -> ~ In LSpurious l ->
  (wCaller s = CWaiting <-> no_earlier LNotify LWait l).
Proof.
  intros l s R N W S. destruct (wait_inv_run l s R) as [I1 I2 I3 I4 I5 I6 I7]. split.
  - intros C. apply I6; [exact C|now apply I3].
  - intros E. apply I2 in W as [W|W]; [exact W|]. exfalso. destruct (I5 W) as [K|[K _]]; [contradiction|].
    eapply (not_both LWait LNotify l); [discriminate|exact K|exact E].
Qed.
Print Assumptions C14_lost_iff.
Theorem C14_no_way_out : forall s e s', wCaller s = CWaiting -> wWorker s = WDone \/ wWorker s = WStopped -> wait_next s e = Some s' -> e = LSpurious.
Proof. intros [c w d] e s' C W H. cbn in *. subst c. destruct W; subst w; destruct e; cbn in H; try discriminate; reflexivity. Qed.
Print Assumptions C14_no_way_out.
Example C14_case : exists s, wait_run wait_init [LPost; LRun; LWait; LFinish; LNotify] = Some s /\ wCaller s = CDone /\ wDangling s = false.
Proof. eexists. split; [reflexivity|]. now split. Qed.
(** The lost wake-up: the discovery ends before the caller has begun to wait. *)
Theorem C14_hangs_refuted : exists l s, wait_run wait_init l = Some s /\ In LFinish l /\ In LNotify l /\ wCaller s = CWaiting
  /\ forall e s', wait_next s e = Some s' -> e = LSpurious.
Proof.
  exists [LPost; LRun; LFinish; LNotify; LWait]. eexists. split; [reflexivity|]. split; [cbn; tauto|]. split; [cbn; tauto|]. split; [reflexivity|].
  intros e s'. apply C14_no_way_out; [reflexivity|now left].
Qed.
Print Assumptions C14_hangs_refuted.
(** The worker is told to stop before it comes to the posted function. *)
Theorem C14_stopped_refuted : exists l s, wait_run wait_init l = Some s /\ wCaller s = CWaiting
  /\ forall e s', wait_next s e = Some s' -> e = LSpurious.
Proof.
  exists [LPost; LStop; LWait]. eexists. split; [reflexivity|]. split; [reflexivity|]. intros e s'. apply C14_no_way_out; [reflexivity|now right].
Qed.
Print Assumptions C14_stopped_refuted.
(** A spurious wake-up returns before the discovery has finished, and the worker then uses the destroyed
    condition variable; this is the only way to it. *)
Theorem C14_dangling_iff : forall l s, wait_run wait_init l = Some s -> wDangling s = true -> In LSpurious l.
Proof. intros l s R. apply (wi_dang _ _ (wait_inv_run l s R)). Qed.
Print Assumptions C14_dangling_iff.
Theorem C14_early_refuted : exists l s s', wait_run wait_init l = Some s /\ wCaller s = CDone /\ ~ In LFinish l
  /\ wait_run s [LFinish; LNotify] = Some s' /\ wDangling s' = true.
Proof.
  exists [LPost; LRun; LWait; LSpurious]. eexists. eexists. split; [reflexivity|]. split; [reflexivity|]. split; [cbn; intuition discriminate|]. split; reflexivity.
Qed.
Print Assumptions C14_early_refuted.

(** ** C73. The pause between discoveries *)
Lemma timer_run_app s l l' : timer_run s (l ++ l') = match timer_run s l with Some s' => timer_run s' l' | None => None end.
Proof. revert s. induction l as [|e l IH]; intros s; [reflexivity|]. cbn. destruct (timer_next s e); [apply IH|reflexivity]. Qed.
Definition count (e : timer_step) (l : list timer_step) : nat :=
  length (filter (fun x => match e, x with TStart, TStart | TTick, TTick | TExpire, TExpire | TStop, TStop => true | _, _ => false end) l).
Lemma count_app e l l' : count e (l ++ l') = count e l + count e l'.
Proof. unfold count. now rewrite filter_app, app_length. Qed.
Lemma timer_inv l : forall s, timer_run timer_init l = Some s ->
  tReady s + tPending s = count TStart l /\ tTicks s = count TTick l /\ tPending s <= 1.
Proof.
  induction l as [|e l IH] using rev_ind; intros s H; [injection H as <-; cbn; lia|].
  rewrite timer_run_app in H. destruct (timer_run timer_init l) as [s0|] eqn:E; [|discriminate]. destruct (IH s0 eq_refl) as (A & B & C).
  cbn in H. destruct (timer_next s0 e) as [s1|] eqn:En; [|discriminate]. injection H as <-. rewrite !count_app.
  destruct s0 as [r p t]. cbn [tReady tPending tTicks] in *. destruct e; cbn in En; try (injection En as <-; cbn; lia).
  destruct r; [discriminate|]. injection En as <-. cbn. lia.
Qed.
Definition timer_step_dec (a b : timer_step) : {a = b} + {a <> b}.
Proof. decide equality. Defined.
(** After a single start, between any two ticks the timer has expired: the pause is kept. *)
Theorem C73_pause_partial : forall l1 l2, count TStart (l1 ++ TTick :: l2 ++ [TTick]) = 1 ->
  timer_run timer_init (l1 ++ TTick :: l2 ++ [TTick]) <> None -> In TExpire l2.
Proof.
  intros l1 l2 C R. rewrite timer_run_app in R. destruct (timer_run timer_init l1) as [s|] eqn:E; [|congruence].
  destruct (timer_inv l1 s E) as (A & _ & D). rewrite count_app in C. cbn [timer_run] in R.
  destruct s as [r p t]. cbn [timer_next tReady tPending tTicks] in *. destruct r as [|r]; [congruence|].
  change (count TStart (TTick :: l2 ++ [TTick])) with (count TStart (l2 ++ [TTick])) in C. rewrite count_app in C. cbn [count filter length] in C.
  assert (r = 0 /\ p = 0) as [-> ->] by lia. cbn [plus] in R.
  assert (Ns : ~ In TStart l2).
  { intros K. assert (1 <= count TStart l2); [|lia]. apply in_split in K as (a & b & ->). rewrite count_app. cbn. lia. }
  destruct (in_dec timer_step_dec TExpire l2) as [K|K]; [exact K|]. exfalso. apply R. clear - Ns K.
  generalize (S t). induction l2 as [|e l2 IH]; intros n; [reflexivity|]. destruct e; cbn in *; try tauto. apply IH; tauto.
Qed.
Print Assumptions C73_pause_partial.
Example C73_case : count TStart ([TStart] ++ TTick :: [TExpire] ++ [TTick]) = 1 /\ timer_run timer_init ([TStart] ++ TTick :: [TExpire] ++ [TTick]) <> None.
Proof. split; [reflexivity|discriminate]. Qed.
(** After a second start (a second connection), every tick queues the next: there is no pause any more. *)
Theorem C73_busy_refuted : forall l s, timer_run timer_init (l ++ [TTick]) = Some s -> 2 <= count TStart l -> 1 <= tReady s.
Proof.
  intros l s H C. destruct (timer_inv _ s H) as (A & _ & D). rewrite count_app in A. cbn in A.
  rewrite timer_run_app in H. destruct (timer_run timer_init l) as [s0|] eqn:E; [|discriminate]. cbn in H. destruct (tReady s0); [discriminate|]. injection H as <-. cbn in *. lia.
Qed.
Print Assumptions C73_busy_refuted.
Theorem C73_no_pause_refuted : forall n, exists s, timer_run timer_init ([TStart; TTick; TStop; TStart] ++ repeat TTick n) = Some s /\ tTicks s = S n.
Proof.
  intros n. rewrite timer_run_app. cbn [timer_run timer_next timer_init tReady tPending tTicks plus].
  assert (G : forall n t, timer_run (mkTimer 1 1 t) (repeat TTick n) = Some (mkTimer 1 1 (n + t))).
  { clear. induction n as [|n IH]; intros t; [reflexivity|]. cbn. rewrite IH. do 2 f_equal. lia. }
  rewrite G. eexists. split; [reflexivity|]. cbn. lia.
Qed.
Print Assumptions C73_no_pause_refuted.
