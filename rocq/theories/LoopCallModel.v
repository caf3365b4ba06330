(** Model of the callbacks which event loops make into a supervisor, and of the pointers
    which keep the supervisor while they run.

    Code:
    - src/rotor/asio/supervisor_asio.cpp 44-67 (do_start_timer: both lambdas capture [self]),
      79-91 (enqueue: the lambda captures the supervisor), 105-133 (do_process: after the
      messages [poll_duration] is read), include/rotor/asio/forwarder.hpp 126-144, 158-175,
      187-196 and 209-219 (the callback and the deferred lambda capture the actor only; the
      strand and do_process are taken from its supervisor, a plain reference);
    - src/rotor/ev/supervisor_ev.cpp 33-38 (async_cb: a plain pointer), 40-57 (timer_cb:
      released at the end), 67-71, 80-84 (shutdown_finish stops the watcher), 93-105
      (do_start_timer takes a reference), 119-142 (on_async: after the messages
      [poll_duration] is read);
    - src/rotor/wx/supervisor_wx.cpp 31-45 (Notify: the timer and its pointer are gone
      before do_process), 49-76 (CallAfter: the lambdas capture the supervisor);
    - src/rotor/fltk/supervisor_fltk.cpp 32-49, 56-63, 81-103 (references are taken by hand),
      src/rotor/fltk/system_context_fltk.cpp 29-46 (the plain pointer of the root);
    - src/rotor/thread/system_context_thread.cpp 38-81 (the reference of the root);
    - include/rotor/supervisor.h 130 (do_process: the supervisor is read once, then the
      delivery plugin of the leader works), 445-469 (process: the queue is looked at after
      every message);
    - include/rotor/actor_base.h 325 (get_supervisor: a plain pointer),
      src/rotor/plugin/child_manager.cpp 95-165 and 336-361 (the parent drops its pointer
      to a child which has confirmed its shutdown), src/rotor/actor_base.cpp 119-144
      (shutdown_finish: timers are cancelled);
    - src/rotor/supervisor.cpp 41-47, src/rotor/asio/supervisor_asio.cpp 36 (who is in one
      locality).

    There is one supervisor [S].  A callback is a sequence of accesses to [S], of calls
    of do_process and of pointers given back.

    Simplifications:
    - of the messages only two matter: the one with which [S] finishes its shutdown, and
      the one which makes the parent drop its pointer;
    - callbacks are started in any order (the loops keep one);
    - of the supervisor only the fact that it is read or written matters, not what;
    - callbacks which wait when [S] finishes: ev_async_stop and the cancellation of
      timers forget them. *)
From stdpp Require Import base list.
From Verif Require Import Base.

(** Who else holds [S], and where its parent lives.
    - KHeld: a root: the system context or the user holds it;
    - KSame: the parent is in the same locality: it handles the confirmation in the same
      call of do_process, and the leader is another supervisor;
    - KTurn: [S] is its own leader, its parent is in another locality but in the same
      thread (asio: two strands, one thread);
    - KThread: [S] is its own leader, its parent works in another thread. *)
Inductive kind := KHeld | KSame | KTurn | KThread.
Inductive call := AsioEnqueue | AsioTimer | AsioForwardSelf | AsioForward | EvAsync | EvTimer | WxCall | WxTimer | FltkCall | FltkTimer | FltkWake | ThreadRun.
Global Instance kind_dec : EqDecision kind.
Proof. solve_decision. Defined.
Global Instance call_dec : EqDecision call.
Proof. solve_decision. Defined.

Inductive instr :=
| IAccess      (* [S] is read or written, by the callback or by what it calls *)
| IProcess     (* do_process *)
| IGive        (* the pointer which came with the callback is given back *)
| IYield.      (* the rest is deferred *)

(** The callback comes with a counted pointer to [S]. *)
Definition holds (c : call) : bool := match c with AsioForward | EvAsync | FltkWake | ThreadRun => false | _ => true end.
Definition prog (c : call) : list instr :=
  match c with
  | AsioEnqueue => [IProcess; IAccess; IProcess; IGive]
  | AsioTimer => [IAccess; IYield; IAccess; IProcess; IAccess; IProcess; IGive]
  | AsioForwardSelf => [IAccess; IYield; IAccess; IProcess; IGive]
  | AsioForward => [IAccess; IYield; IAccess; IProcess]
  | EvAsync => [IAccess; IProcess; IAccess; IProcess]
  | EvTimer => [IAccess; IProcess; IGive]
  | WxCall => [IAccess; IProcess; IGive]
  | WxTimer => [IAccess; IGive; IProcess]
  | FltkCall => [IAccess; IProcess; IGive]
  | FltkTimer => [IAccess; IGive]
  | FltkWake | ThreadRun => [IAccess; IProcess; IAccess; IProcess]
  end.
(** Forgotten when [S] finishes its shutdown, and not made afterwards. *)
Definition stopped (c : call) : bool := match c with EvAsync | EvTimer | WxTimer | FltkTimer => true | _ => false end.
(** Started by [S] or its actors while they work. *)
Definition own (c : call) : bool := stopped c || match c with AsioTimer | AsioForward | AsioForwardSelf => true | _ => false end.

(** A callback: does it (still) hold [S], and what is left to do. *)
Record waiting := Waiting { w_call : call; w_holds : bool; w_rest : list instr }.
Record lstate := LSt {
  l_kept : bool;                (* the parent, the context or the user points to S *)
  l_down : bool;                (* S has finished its shutdown *)
  l_freed : bool;
  l_wait : list waiting;
  l_run : option waiting;       (* the callback which runs *)
  l_in : bool }.                (* it is inside process() *)
Definition linit : lstate := LSt true false false [] None false.

Inductive lop :=
| LCall (c : call)              (* the callback is registered *)
| LStart (i : nat)
| LStep
| LHandle (ends : bool)         (* process() handles a message; S finishes its shutdown with it *)
| LLeave                        (* process() returns *)
| LDrop.                        (* the parent drops its pointer *)

Section model.
Context (k : kind).
(** [S] is its own leader: its queue is looked at after every message. *)
Definition leads : bool := match k with KTurn | KThread => true | _ => false end.
Definition held (s : lstate) : bool := l_kept s || existsb w_holds (l_wait s) || match l_run s with Some w => w_holds w | None => false end.
Definition settle (s : lstate) : lstate := LSt (l_kept s) (l_down s) (l_freed s || negb (held s)) (l_wait s) (l_run s) (l_in s).
Definition touch (s : lstate) (s' : lstate) : res (lstate * list unit) := if l_freed s then Crash else Ok (settle s', []).
Definition fine (s : lstate) : res (lstate * list unit) := Ok (settle s, []).
Definition set_run (s : lstate) (r : option waiting) (i : bool) : lstate := LSt (l_kept s) (l_down s) (l_freed s) (l_wait s) r i.
Definition set_wait (s : lstate) (w : list waiting) : lstate := LSt (l_kept s) (l_down s) (l_freed s) w (l_run s) (l_in s).
Definition may_drop (s : lstate) : bool := match k with KHeld => false | KSame => l_in s | KTurn => match l_run s with None => true | _ => false end | KThread => true end.

Definition lstep (s : lstate) (o : lop) : res (lstate * list unit) :=
  match o with
  | LCall c => if l_kept s && negb (l_down s && own c) then fine (set_wait s (l_wait s ++ [Waiting c (holds c) (prog c)])) else fine s
  | LStart i =>
      match l_run s, l_wait s !! i with
      | None, Some w => fine (LSt (l_kept s) (l_down s) (l_freed s) (delete i (l_wait s)) (Some w) false)
      | _, _ => fine s
      end
  | LStep =>
      match l_run s with
      | Some (Waiting c h r) =>
          if l_in s then fine s
          else match r with
               | [] => fine (set_run s None false)
               | IAccess :: r => touch s (set_run s (Some (Waiting c h r)) false)
               | IProcess :: r => touch s (set_run s (Some (Waiting c h r)) true)
               | IGive :: r => fine (set_run s (Some (Waiting c false r)) false)
               | IYield :: r => fine (LSt (l_kept s) (l_down s) (l_freed s) (l_wait s ++ [Waiting c h r]) None false)
               end
      | None => fine s
      end
  | LHandle ends =>
      if l_in s then
        let s' := if ends then LSt (l_kept s) true (l_freed s) (if l_down s then l_wait s else List.filter (fun w => negb (stopped (w_call w))) (l_wait s)) (l_run s) true else s in
        if leads then touch s s' else fine s'
      else fine s
  | LLeave => if l_in s then if leads then touch s (set_run s (l_run s) false) else fine (set_run s (l_run s) false) else fine s
  | LDrop => if l_kept s && l_down s && may_drop s then fine (LSt false true (l_freed s) (l_wait s) (l_run s) (l_in s)) else fine s
  end.
End model.
