(** The wait for a discovery (QueryLocalServices) and the discovery timer, src/mvrxchange/CMVRxchangeService.cpp. *)
From Coq Require Import List Bool Arith.
Import ListNotations.

(** ** The wait, CMVRxchangeService.cpp:152-163, in the branch with a running worker thread.
    The caller makes a condition variable and a mutex on its stack, posts a function to the worker, and waits without
    a condition.  The worker runs the function: the discovery, then notify_all, without taking the mutex.  A wait may
    also end by itself (spurious wake-up, allowed by the standard).  The worker leaves its loop between two
    functions when it was told to stop (454-458, 468-475). *)
Inductive caller := CPost            (* before boost::asio::post *)
| CPosted                            (* after it, before cv.wait *)
| CWaiting                           (* blocked in cv.wait *)
| CDone.                             (* cv.wait has returned; the condition variable is destroyed *)
Inductive worker := WIdle            (* not yet at the posted function *)
| WRunning                           (* in mDNS_Client_Task *)
| WNotify                            (* task finished, before cv.notify_all *)
| WDone                              (* after notify_all *)
| WStopped.                          (* the thread has ended *)
Record wait_state := mkWait { wCaller : caller; wWorker : worker; wDangling : bool (* notify_all on a destroyed object *) }.
Inductive wait_step := LPost | LWait | LSpurious | LRun | LFinish | LNotify | LStop.
Definition wait_next (s : wait_state) (l : wait_step) : option wait_state :=
  match l, wCaller s, wWorker s with
  | LPost, CPost, w => Some (mkWait CPosted w (wDangling s))
  | LWait, CPosted, w => Some (mkWait CWaiting w (wDangling s))
  | LSpurious, CWaiting, w => Some (mkWait CDone w (wDangling s))
  | LRun, CPost, _ => None
  | LRun, c, WIdle => Some (mkWait c WRunning (wDangling s))
  | LFinish, c, WRunning => Some (mkWait c WNotify (wDangling s))
  | LNotify, CWaiting, WNotify => Some (mkWait CDone WDone (wDangling s))
  | LNotify, CDone, WNotify => Some (mkWait CDone WDone true)
  | LNotify, c, WNotify => Some (mkWait c WDone (wDangling s))
  | LStop, c, WIdle => Some (mkWait c WStopped (wDangling s))
  | _, _, _ => None
  end.
Fixpoint wait_run (s : wait_state) (l : list wait_step) : option wait_state :=
  match l with [] => Some s | e :: r => match wait_next s e with Some s' => wait_run s' r | None => None end end.
Definition wait_init : wait_state := mkWait CPost WIdle false.

(** ** The discovery timer: mDNS_Client_Start 460-465, mDNS_Client_Tick 443-450, mDNS_Client_Stop 468-475.
    [tReady]: ticks queued to run.  [tPending]: waits pending on the one timer.  Setting the expiry of a
    boost::asio::deadline_timer cancels all its pending waits, and the handler of a cancelled wait runs too; the
    handler here is the tick itself, which does not look at the error code.  Stopping the thread leaves both. *)
Record timer := mkTimer { tReady : nat; tPending : nat; tTicks : nat }.
Inductive timer_step := TStart | TStop | TTick | TExpire.
Definition timer_next (s : timer) (l : timer_step) : option timer :=
  match l with
  | TStart => Some (mkTimer (S (tReady s)) (tPending s) (tTicks s))
  | TStop => Some s
  | TTick => match tReady s with
             | O => None
             | S r => Some (mkTimer (r + tPending s) 1 (S (tTicks s)))
             end
  | TExpire => Some (mkTimer (tReady s + tPending s) 0 (tTicks s))     (* 45 seconds have passed *)
  end.
Fixpoint timer_run (s : timer) (l : list timer_step) : option timer :=
  match l with [] => Some s | e :: r => match timer_next s e with Some s' => timer_run s' r | None => None end end.
Definition timer_init : timer := mkTimer 0 0 0.
