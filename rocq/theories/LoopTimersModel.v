(** Model of the timers of the asio, ev, wx and fltk backends:
    src/rotor/asio/supervisor_asio.cpp 41-79, src/rotor/ev/supervisor_ev.cpp 39-57 and
    92-117, src/rotor/wx/supervisor_wx.cpp 31-44 and 77-95,
    src/rotor/fltk/supervisor_fltk.cpp 32-49 and 56-76; the common part:
    include/rotor/supervisor.h 378-392 (start_timer), src/rotor/actor_base.cpp 257-268
    (cancel_timer, on_timer_trigger).

    The four backends have the same shape: the supervisor keeps a map of its timers,
    the actor keeps a map of its timer handlers, and the loop calls back.  They differ in
    what the loop may still do with a cancelled timer, in what happens if the map has no
    such timer, in the references to the supervisor taken by hand, and in whether the
    queue is processed after the callback.

    A callback is user code: it may start and cancel timers and send.  The stack holds the
    running callbacks; [LReturn] lets the innermost return.  Messages are dispatched in a
    frame [FProc], whose handlers may do the same.

    Simplifications: time is not modelled (a waiting timer may expire at any moment);
    ids are allocated from an unbounded counter; the [timers_map]s of all actors of the
    supervisor are merged into one set (ids are unique in the supervisor), and their
    rehashing while a callback runs is ignored; the loops do not call back a timer which
    they were told to forget, except asio, which has given the completion to the strand. *)
From stdpp Require Import base list gmap.
From Verif Require Import Base.
Open Scope N_scope.

Inductive backend := Asio | Ev | Wx | Fltk.
Global Instance backend_eq_dec : EqDecision backend.
Proof. solve_decision. Defined.

Inductive frame :=
| FFire (id : N)       (* on_timer_trigger(id, false) *)
| FCancel (id : N)     (* on_timer_trigger(id, true) *)
| FProc (own : bool).  (* do_process, after a fired timer, or called by the loop for another reason *)
Global Instance frame_eq_dec : EqDecision frame.
Proof. solve_decision. Defined.

Record lstate := LState {
  l_next : N;
  l_act : gset N;        (* actor_base_t::timers_map *)
  l_sup : gset N;        (* timers_map of the supervisor *)
  l_armed : gset N;      (* timers the event loop waits for *)
  l_done : list N;       (* asio: completions deferred to the strand, supervisor_asio.cpp:53 *)
  l_stack : list frame;
  l_queue : list N;      (* messages of the locality *)
  l_refs : Z             (* references to the supervisor taken by hand *)
}.
Definition linit : lstate := LState 1 ∅ ∅ ∅ [] [] [] 0.

Inductive levent :=
| Started (id : N)
| Fired (id : N)         (* callback with cancelled = false *)
| Cancelled (id : N)     (* callback with cancelled = true *)
| Sent (m : N)
| Handled (m : N).

Inductive lop :=
| LStart                 (* start_timer *)
| LCancel (id : N)       (* cancel_timer *)
| LDoCancel (id : N)     (* do_cancel_timer, called by the supervisor for a request timer *)
| LExpire (id : N)       (* the time has come *)
| LStrand                (* asio: the strand runs the next completion *)
| LReturn                (* the innermost callback, or do_process, returns *)
| LSend (m : N)          (* the running code sends inside the locality *)
| LProcess               (* the loop calls do_process for another reason *)
| LDispatch.             (* do_process dispatches the next message *)

Definition set_act (s : lstate) (x : gset N) := LState (l_next s) x (l_sup s) (l_armed s) (l_done s) (l_stack s) (l_queue s) (l_refs s).
Definition set_sup (s : lstate) (x : gset N) := LState (l_next s) (l_act s) x (l_armed s) (l_done s) (l_stack s) (l_queue s) (l_refs s).
Definition set_armed (s : lstate) (x : gset N) := LState (l_next s) (l_act s) (l_sup s) x (l_done s) (l_stack s) (l_queue s) (l_refs s).
Definition set_done (s : lstate) (x : list N) := LState (l_next s) (l_act s) (l_sup s) (l_armed s) x (l_stack s) (l_queue s) (l_refs s).
Definition set_stack (s : lstate) (x : list frame) := LState (l_next s) (l_act s) (l_sup s) (l_armed s) (l_done s) x (l_queue s) (l_refs s).
Definition set_queue (s : lstate) (x : list N) := LState (l_next s) (l_act s) (l_sup s) (l_armed s) (l_done s) (l_stack s) x (l_refs s).
Definition set_refs (s : lstate) (x : Z) := LState (l_next s) (l_act s) (l_sup s) (l_armed s) (l_done s) (l_stack s) (l_queue s) x.

(** supervisor_ev.cpp:102,113,56; supervisor_fltk.cpp:62,72,48.  (asio and wx hold the
    supervisor by an intrusive pointer in the completion, or in the timer.) *)
Definition counted (b : backend) : bool := match b with Ev | Fltk => true | _ => false end.
Definition add_ref (b : backend) (s : lstate) : lstate := if counted b then set_refs s (l_refs s + 1)%Z else s.
Definition release (b : backend) (s : lstate) : lstate := if counted b then set_refs s (l_refs s - 1)%Z else s.

(** supervisor.h:378-392; do_start_timer: asio 41-66, ev 92-105, wx 77-83, fltk 56-63. *)
Definition start_timer (b : backend) (s : lstate) : lstate :=
  let id := l_next s in
  add_ref b (LState (N.succ id) ({[id]} ∪ l_act s) ({[id]} ∪ l_sup s) ({[id]} ∪ l_armed s)
                    (l_done s) (l_stack s) (l_queue s) (l_refs s)).

(** After on_timer_trigger(id, true): asio 76, ev 112-113, wx 91, fltk 71-72. *)
Definition after_cancel (b : backend) (s : lstate) (id : N) : lstate :=
  release b (set_sup s (l_sup s ∖ {[id]})).
(** After on_timer_trigger(id, false): asio 58-61 (erases twice), ev 51-56, wx 39-40,
    fltk 43-48 (do_process is commented out, 45). *)
Definition after_fire (b : backend) (s : lstate) (id : N) : lstate :=
  let s1 := set_sup s (l_sup s ∖ {[id]}) in
  match b with Fltk => release b s1 | _ => set_stack s1 (FProc true :: l_stack s1) end.

(** do_cancel_timer: asio 68-79 ([at] outside of a try block), ev 107-117, wx 85-95,
    fltk 65-76. *)
Definition do_cancel_timer (b : backend) (s : lstate) (id : N) : res (lstate * list levent) :=
  if bool_decide (id ∈ l_sup s) then
    let s1 := set_armed s (l_armed s ∖ {[id]}) in
    if bool_decide (id ∈ l_act s1) then Ok (set_stack s1 (FCancel id :: l_stack s1), [Cancelled id])
    else Ok (after_cancel b s1 id, [])
  else match b with Asio => Crash | _ => Ok (s, []) end.

(** The callback of the loop: asio 54-62 (on the strand), ev 39-57, wx 31-44, fltk 32-49.
    If the map has no such timer, ev and fltk release the supervisor nevertheless. *)
Definition fire (b : backend) (s : lstate) (id : N) : res (lstate * list levent) :=
  if bool_decide (id ∈ l_sup s) then
    if bool_decide (id ∈ l_act s) then Ok (set_stack s (FFire id :: l_stack s), [Fired id])
    else Ok (after_fire b s id, [])
  else Ok (release b s, []).

Definition lstep (b : backend) (s : lstate) (o : lop) : res (lstate * list levent) :=
  match o with
  | LStart => Ok (start_timer b s, [Started (l_next s)])
  | LCancel id =>
      (* actor_base.cpp:257-260 *)
      if bool_decide (id ∈ l_act s) then do_cancel_timer b s id else AssertFail
  | LDoCancel id => do_cancel_timer b s id
  | LExpire id =>
      if bool_decide (id ∈ l_armed s) then
        match b with
        | Asio => Ok (set_done (set_armed s (l_armed s ∖ {[id]})) (l_done s ++ [id]), [])
        | _ => match l_stack s with [] => fire b (set_armed s (l_armed s ∖ {[id]})) id | _ => Ok (s, []) end
        end
      else Ok (s, [])
  | LStrand =>
      match l_stack s, l_done s with
      | [], id :: rest => fire b (set_done s rest) id
      | _, _ => Ok (s, [])
      end
  | LReturn =>
      match l_stack s with
      | [] => Ok (s, [])
      | FFire id :: st =>
          (* actor_base.cpp:266 erases through an iterator *)
          if bool_decide (id ∈ l_act s) then Ok (after_fire b (set_act (set_stack s st) (l_act s ∖ {[id]})) id, []) else Crash
      | FCancel id :: st =>
          if bool_decide (id ∈ l_act s) then Ok (after_cancel b (set_act (set_stack s st) (l_act s ∖ {[id]})) id, []) else Crash
      | FProc own :: st =>
          match l_queue s with
          | [] => Ok (if own then release b (set_stack s st) else set_stack s st, [])
          | _ => Ok (s, [])
          end
      end
  | LSend m => Ok (set_queue s (l_queue s ++ [m]), [Sent m])
  | LProcess => match l_stack s with [] => Ok (set_stack s [FProc false], []) | _ => Ok (s, []) end
  | LDispatch =>
      match l_stack s, l_queue s with
      | FProc _ :: _, m :: rest => Ok (set_queue s rest, [Handled m])
      | _, _ => Ok (s, [])
      end
  end.
