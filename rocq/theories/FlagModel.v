(** Model of the shutdown flag of a supervisor.

    Code: src/rotor/supervisor.cpp 69-74 (on_start), 76-88 (do_shutdown), 153-162
    (on_shutdown_check_timer), src/rotor/actor_base.cpp 121-145 (shutdown_finish),
    257-268 (cancel_timer, on_timer_trigger), src/rotor/plugin/starter.cpp 67-86
    (on_start), include/rotor/supervisor.h 378-392 (start_timer).

    Simplifications: the other life-cycle steps of the supervisor (the arrival of
    a shutdown request, the end of the shutdown) are operations of the
    environment, also timers of the user and the moments when timers fire.
    Identifiers do not wrap (see C10).  [timers_map.erase(it)] after a callback
    which started a timer relies on the iterator surviving a rehash. *)
From stdpp Require Import base list gmap.
From Verif Require Import Base.

Inductive lstate := SInit | SOperational | SShuttingDown | SShutDown.
Global Instance lstate_eq_dec : EqDecision lstate.
Proof. solve_decision. Defined.
Inductive tk := KPoll | KUser.
Global Instance tk_eq_dec : EqDecision tk.
Proof. solve_decision. Defined.

Record fstate := FState {
  f_state : lstate;
  f_flag : bool;                  (* the supervisor has a flag: shutdown_flag != nullptr *)
  f_timers : gmap N tk;           (* timers_map, all armed in the event loop *)
  f_last : N
}.
Definition finit (has_flag : bool) : fstate := FState SInit has_flag ∅ 0.

Inductive fop :=
| OStartTrigger                   (* start signal *)
| OFire (id : N) (flag : bool)    (* an armed timer fires while the flag has this value *)
| OUserStart
| OUserCancel (id : N)
| OShutdownRequest
| OFinish.

Inductive fevent :=
| EArm (id : N)                   (* start_timer(shutdown_poll_frequency) *)
| EPoll (flag : bool)             (* the flag is looked at *)
| ETrigger                        (* shutdown_trigger is sent *)
| EUser (id : N) (cancelled : bool).

(** supervisor.h:387-392 *)
Definition start_timer (s : fstate) (k : tk) : fstate * N :=
  let id := N.succ (f_last s) in
  (FState (f_state s) (f_flag s) (<[id := k]> (f_timers s)) id, id).

Definition arm (s : fstate) : fstate * list fevent := let '(s', id) := start_timer s KPoll in (s', [EArm id]).

(** supervisor.cpp:76-88 *)
Definition do_shutdown (s : fstate) : list fevent :=
  match f_state s with SInit | SOperational => [ETrigger] | _ => [] end.

(** supervisor.cpp:153-162 *)
Definition on_shutdown_check_timer (s : fstate) (cancelled flag : bool) : fstate * list fevent :=
  if cancelled then (s, [])
  else if flag then (s, EPoll true :: do_shutdown s)
  else let '(s', e) := arm s in (s', EPoll false :: e).

(** actor_base.cpp:262-268 *)
Definition on_timer_trigger (s : fstate) (id : N) (cancelled flag : bool) : fstate * list fevent :=
  match f_timers s !! id with
  | None => (s, [])
  | Some k =>
      let '(s1, e) := match k with
                      | KPoll => on_shutdown_check_timer s cancelled flag
                      | KUser => (s, [EUser id cancelled])
                      end in
      (FState (f_state s1) (f_flag s1) (delete id (f_timers s1)) (f_last s1), e)
  end.

(** actor_base.cpp:131-133: [while (!timers_map.empty()) cancel_timer(...)]; the
    callbacks run here start no timers.  The list is the content of the map. *)
Fixpoint cancel_all (s : fstate) (ids : list N) : fstate * list fevent :=
  match ids with
  | [] => (s, [])
  | id :: ids' =>
      let '(s1, e1) := on_timer_trigger s id true false in
      let '(s2, e2) := cancel_all s1 ids' in
      (s2, e1 ++ e2)
  end.

Definition fstep (s : fstate) (o : fop) : res (fstate * list fevent) :=
  match o with
  | OStartTrigger =>
      match f_state s with
      | SInit =>                                     (* starter.cpp:74: INITIALIZED *)
          let s1 := FState SOperational (f_flag s) (f_timers s) (f_last s) in
          if f_flag s then Ok (arm s1) else Ok (s1, [])
      | _ => Ok (s, [])
      end
  | OFire id flag => Ok (on_timer_trigger s id false flag)
  | OUserStart => let '(s', _) := start_timer s KUser in Ok (s', [])
  | OUserCancel id =>
      match f_timers s !! id with
      | Some KUser => Ok (on_timer_trigger s id true false)
      | _ => Ok (s, [])
      end
  | OShutdownRequest =>
      match f_state s with
      | SInit | SOperational => Ok (FState SShuttingDown (f_flag s) (f_timers s) (f_last s), [])
      | _ => Ok (s, [])
      end
  | OFinish =>
      match f_state s with
      | SShuttingDown =>
          let '(s1, e) := cancel_all s (map fst (map_to_list (f_timers s))) in
          Ok (FState SShutDown (f_flag s1) (f_timers s1) (f_last s1), e)
      | _ => Ok (s, [])
      end
  end.
