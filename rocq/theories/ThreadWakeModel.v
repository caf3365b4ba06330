(** Interleaving model of the wake-up protocol of the thread backend.

    Code: src/rotor/thread/system_context_thread.cpp 38-81 (run), 83-92 (check),
    src/rotor/thread/supervisor_thread.cpp 25-30 (enqueue), 32-44 (intercept);
    the inbound queue belongs to the supervisor the message is addressed to
    (supervisor_thread.cpp:27), the loop drains the queue of the root supervisor
    only (system_context_thread.cpp:43, 86).

    Every step below is one atomic access to the shared data (queue, mutex,
    condition variable); the list of operations is the schedule.  A step which is
    not enabled (a lock which is taken, a thread which is elsewhere) leaves the
    state unchanged.

    Simplifications: [boost::lockfree::queue] is a linearizable FIFO queue whose
    [push] always succeeds, [std::mutex] and [std::condition_variable] behave as
    in the standard (a notification wakes the loop if it waits at that moment and
    is lost otherwise; spurious wake-ups and time-outs are allowed); messages
    which handlers send inside the locality are not represented; [do_process] is
    one step. *)
From stdpp Require Import base list gmap.
From Verif Require Import Base.
Open Scope N_scope.

(** Where an enqueuing thread is inside [enqueue]. *)
Inductive epc := EPushed | ELocked | ENotified.
Global Instance epc_eq_dec : EqDecision epc.
Proof. solve_decision. Defined.

(** Where the loop is inside [run]. *)
Inductive lpc :=
| LProcess        (* 54: about to call do_process *)
| LPop            (* 46-49, 56: popping the inbound queue *)
| LSpin           (* 57-66: fast stage *)
| LTest           (* 67: queue.empty() *)
| LLock           (* 69: acquiring the mutex *)
| LCheck          (* 73: evaluating the predicate, mutex held *)
| LWait           (* 73: predicate was false, about to wait, mutex still held *)
| LSleep          (* 73: waiting, mutex released *)
| LRelock (timeout : bool)   (* 73: woken up, acquiring the mutex *)
| LLast           (* 73: timed out, predicate evaluated for the last time *)
| LUnlock         (* 74: leaving the scope of the lock *)
| LTime           (* 75: update_time *)
| LEnd.           (* 80 *)
Global Instance lpc_eq_dec : EqDecision lpc.
Proof. solve_decision. Defined.

Inductive owner := OwnLoop | OwnThread (t : N).
Global Instance owner_eq_dec : EqDecision owner.
Proof. solve_decision. Defined.

Record wstate := WState {
  w_inb : N -> list N;          (* inbound_queue of every supervisor; 0 is the root *)
  w_queue : list N;             (* queue of the root supervisor *)
  w_mutex : option owner;
  w_enq : gmap N epc;           (* threads inside enqueue *)
  w_pc : lpc;
  w_notified : bool             (* the sleeping loop has been notified *)
}.

Definition winit : wstate := WState (fun _ => []) [] None ∅ LProcess false.

Inductive wop :=
| WPush (t sup m : N)
| WLock (t : N)
| WNotify (t : N)
| WUnlock (t : N)
| WLoop (choice : bool)   (* a step of the loop; the choice stands for: the
                             supervisor became SHUT_DOWN (LProcess), the deadline
                             has not been reached (LSpin), a spurious wake-up
                             (LSleep) *)
| WTimeout                (* the deadline of wait_until has passed *)
| WIntercept.             (* check() during do_process *)

(** Observable: message [m] is handed to the actors by [do_process]. *)
Inductive wevent := WDispatched (m : N).

Definition set_inb (s : wstate) (sup : N) (l : list N) : wstate :=
  WState (fun k => if N.eqb k sup then l else w_inb s k) (w_queue s) (w_mutex s) (w_enq s) (w_pc s) (w_notified s).
Definition set_pc (s : wstate) (p : lpc) : wstate :=
  WState (w_inb s) (w_queue s) (w_mutex s) (w_enq s) p (w_notified s).
Definition set_queue (s : wstate) (q : list N) : wstate :=
  WState (w_inb s) q (w_mutex s) (w_enq s) (w_pc s) (w_notified s).
Definition set_mutex (s : wstate) (o : option owner) : wstate :=
  WState (w_inb s) (w_queue s) o (w_enq s) (w_pc s) (w_notified s).
Definition set_enq (s : wstate) (e : gmap N epc) : wstate :=
  WState (w_inb s) (w_queue s) (w_mutex s) e (w_pc s) (w_notified s).
Definition set_notified (s : wstate) (b : bool) : wstate :=
  WState (w_inb s) (w_queue s) (w_mutex s) (w_enq s) (w_pc s) b.

(** supervisor_thread.cpp:27 *)
Definition e_push (s : wstate) (t sup m : N) : wstate :=
  match w_enq s !! t with
  | None => set_enq (set_inb s sup (w_inb s sup ++ [m])) (<[t := EPushed]> (w_enq s))
  | Some _ => s
  end.
(** supervisor_thread.cpp:28 *)
Definition e_lock (s : wstate) (t : N) : wstate :=
  match w_enq s !! t, w_mutex s with
  | Some EPushed, None => set_enq (set_mutex s (Some (OwnThread t))) (<[t := ELocked]> (w_enq s))
  | _, _ => s
  end.
(** supervisor_thread.cpp:29 *)
Definition e_notify (s : wstate) (t : N) : wstate :=
  match w_enq s !! t with
  | Some ELocked =>
      let s1 := set_enq s (<[t := ENotified]> (w_enq s)) in
      if decide (w_pc s = LSleep) then set_notified s1 true else s1
  | _ => s
  end.
(** supervisor_thread.cpp:30, destructor of the lock_guard *)
Definition e_unlock (s : wstate) (t : N) : wstate :=
  match w_enq s !! t with
  | Some ENotified => set_enq (set_mutex s None) (delete t (w_enq s))
  | _ => s
  end.

(** system_context_thread.cpp:52-80, one step *)
Definition l_step (s : wstate) (choice : bool) : wstate * list wevent :=
  match w_pc s with
  | LProcess =>
      (set_pc (set_queue s []) (if choice then LEnd else LPop), WDispatched <$> w_queue s)
  | LPop =>
      match w_inb s 0 with
      | m :: rest => (set_queue (set_inb s 0 rest) (w_queue s ++ [m]), [])
      | [] => (set_pc s LSpin, [])
      end
  | LSpin =>
      (set_pc s (if choice && bool_decide (w_queue s = []) then LPop else LTest), [])
  | LTest => (set_pc s (if bool_decide (w_queue s = []) then LLock else LTime), [])
  | LLock =>
      match w_mutex s with
      | None => (set_pc (set_mutex s (Some OwnLoop)) LCheck, [])
      | Some _ => (s, [])
      end
  | LCheck => (set_pc s (if bool_decide (w_inb s 0 = []) then LWait else LUnlock), [])
  | LWait => (set_notified (set_mutex (set_pc s LSleep) None) false, [])
  | LSleep => if choice || w_notified s then (set_pc s (LRelock false), []) else (s, [])
  | LRelock timeout =>
      match w_mutex s with
      | None => (set_pc (set_mutex s (Some OwnLoop)) (if timeout then LLast else LCheck), [])
      | Some _ => (s, [])
      end
  | LLast => (set_pc s LUnlock, [])
  | LUnlock => (set_pc (set_mutex s None) LTime, [])
  | LTime => (set_pc s LProcess, [])
  | LEnd => (s, [])
  end.

(** system_context_thread.cpp:83-91, called by [intercept] from inside a handler *)
Definition l_check (s : wstate) : wstate :=
  match w_pc s with
  | LProcess => set_inb (set_queue s (w_queue s ++ w_inb s 0)) 0 []
  | _ => s
  end.

Definition wstep (s : wstate) (o : wop) : res (wstate * list wevent) :=
  match o with
  | WPush t sup m => Ok (e_push s t sup m, [])
  | WLock t => Ok (e_lock s t, [])
  | WNotify t => Ok (e_notify s t, [])
  | WUnlock t => Ok (e_unlock s t, [])
  | WLoop c => Ok (l_step s c)
  | WTimeout => Ok (if decide (w_pc s = LSleep) then set_pc s (LRelock true) else s, [])
  | WIntercept => Ok (l_check s, [])
  end.
