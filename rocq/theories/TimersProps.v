(** Properties C13, C14: timers of the std::thread backend. *)
From stdpp Require Import base list gmap.
From Verif Require Import Base TimersModel TimersSpec TimersProofs TimersPresent TimersHandlers.

(** C13: a timer fires only when the loop clock has passed the moment it was
    started at plus its interval. *)
Theorem C13_timer_never_fires_early : forall ops s ev e1 id t e2,
  guarded tstep timer_discipline tinit ops -> run tstep tinit ops = Ok (s, ev) ->
  ev = e1 ++ Fired id t :: e2 ->
  exists t0 iv, Started id t0 iv ∈ e1 /\ (t0 + Z.of_N iv < t)%Z.
Proof. exact timers_never_early. Qed.

(** C13: when a timer fires, every other timer still waiting has a later
    deadline, or the same deadline and was started later. *)
Theorem C13_timers_fire_in_deadline_order : forall ops s ev e1 id t e2 t0 iv id' t0' iv',
  guarded tstep timer_discipline tinit ops -> run tstep tinit ops = Ok (s, ev) ->
  ev = e1 ++ Fired id t :: e2 ->
  Started id t0 iv ∈ e1 -> Started id' t0' iv' ∈ e1 -> id' <> id -> callbacks id' e1 = 0 ->
  (t0 + Z.of_N iv < t0' + Z.of_N iv')%Z \/
  ((t0 + Z.of_N iv = t0' + Z.of_N iv')%Z /\ (id < id')%N).
Proof. exact timers_order. Qed.

(** C13: a timer which is started in a blocking handler counts from the moment of the call, although the
    loop has not read the clock since. Otherwise it counts from the last reading: C13_wall_refuted. *)
Theorem C13_present : forall ops1 s1 ev1 iv ops2 s2 ev2 id t iv',
  run tstep tinit ops1 = Ok (s1, ev1) -> t_icpt s1 = true ->
  run tstep s1 (OpStart iv :: ops2) = Ok (s2, ev2) -> Started id t iv' ∈ ev2 -> (t_clock s1 <= t)%Z.
Proof. exact timers_present. Qed.

(** C13: the loop is never ahead of the clock: no timer starts or fires at a moment which is still to
    come. This does not bound the time since the call, see C13_wall_refuted. *)
Theorem C13_clock : forall ops s ev x t, run tstep tinit ops = Ok (s, ev) -> x ∈ ev ->
  (exists id iv, x = Started id t iv) \/ (exists id, x = Fired id t) -> (t <= t_clock s)%Z.
Proof. exact timers_clock. Qed.

(** C14: disciplined use never fails an assertion or corrupts the timer list. *)
Theorem C14_timers_never_crash : forall ops,
  guarded tstep timer_discipline tinit ops -> exists s ev, run tstep tinit ops = Ok (s, ev).
Proof. exact timers_run_ok. Qed.

(** C14: a started timer gets at most one callback, and none exactly while it
    is still waiting with its own deadline. *)
Theorem C14_timer_called_back_once : forall ops s ev id t0 iv,
  guarded tstep timer_discipline tinit ops -> run tstep tinit ops = Ok (s, ev) ->
  Started id t0 iv ∈ ev ->
  callbacks id ev <= 1 /\
  (callbacks id ev = 0 <-> (id, (t0 + Z.of_N iv)%Z) ∈ t_nodes s /\ id ∉ frame_id <$> t_stack s).
Proof. exact timers_once. Qed.

(** C14: when the loop is idle no waiting timer is overdue with respect to the
    last clock reading. *)
Theorem C14_no_overdue_timer_when_idle : forall ops s ev n,
  guarded tstep timer_discipline tinit ops -> run tstep tinit ops = Ok (s, ev) ->
  t_stack s = [] -> n ∈ t_nodes s -> (t_now s <= n.2)%Z.
Proof. exact timers_no_overdue. Qed.

(** C14: in every run, disciplined or not, as long as it goes on, the handler of each node of the list
    is still in the map of its owner: the pointer [it->handler] does not dangle. *)
Theorem C14_known : forall ops s ev n, run tstep tinit ops = Ok (s, ev) -> n ∈ t_nodes s -> n.1 ∈ t_map s.
Proof. exact timers_known. Qed.

(** C14: ... and no timer has two nodes. *)
Theorem C14_distinct : forall ops s ev, run tstep tinit ops = Ok (s, ev) -> NoDup (t_nodes s).*1.
Proof. exact timers_distinct. Qed.

(** A run that is not disciplined: the callback of the first timer starts another one in a blocking
    handler, and fires again meanwhile. *)
Example C14_known_nested : exists s, run tstep tinit [OpStart 5; OpStart 50; OpClock 10; OpIntercept true; OpUpdate; OpStart 7; OpReturn] =
  Ok (s, [Started 1 0 5; Started 2 0 50; Fired 1 10; Fired 1 10; Started 3 10 7]) /\ (t_nodes s).*1 = [3; 2]%N /\ t_stack s = [FUpd 1 KNone].
Proof. eexists. split; [vm_compute; reflexivity|]. split; vm_compute; reflexivity. Qed.

(** Non-vacuity: nested starts and cancels inside callbacks. *)
Definition demo_timers : list top :=
  [ OpStart 5; OpStart 3; OpStart 3; OpStart 50; OpClock 10; OpUpdate;
    (* callback of 2: cancels 4, whose callback starts 5 *)
    OpCancel 4; OpStart 1; OpReturn; OpReturn;
    (* callback of 3, then of 1 *) OpReturn; OpReturn; OpClock 5; OpUpdate; OpReturn ].
Example demo_timers_ok :
  guarded tstep timer_discipline tinit demo_timers /\
  exists s, run tstep tinit demo_timers =
    Ok (s, [Started 1 0 5; Started 2 0 3; Started 3 0 3; Started 4 0 50; Fired 2 10; Cancelled 4;
            Started 5 10 1; Fired 3 10; Fired 1 10; Fired 5 15]).
Proof.
  split.
  - apply (guardedb_sound _ _ _ timer_disciplineb_sound). vm_compute. reflexivity.
  - eexists. vm_compute. reflexivity.
Qed.

(** C14, limits of the guarantee.  (1) While an I/O-tagged handler is being
    intercepted, a callback which starts a timer makes the same expired timer
    fire again. *)
Theorem C14_once_while_intercepting_refuted : exists ops s ev,
  run tstep tinit ops = Ok (s, ev) /\
  Forall (fun o => match o with OpCancel _ => False | _ => True end) ops /\ callbacks 1 ev = 2.
Proof.
  exists [OpStart 5; OpClock 10; OpIntercept true; OpUpdate; OpStart 7]. eexists _, _.
  split; [vm_compute; reflexivity|]. split; [repeat constructor|]. vm_compute. reflexivity.
Qed.

(** ... and any callback that restarts a timer never stops recursing: every
    further [OpStart] of the nested callbacks fires it once more. *)
Theorem C14_restart_while_intercepting_recurses : exists s, forall n,
  run tstep tinit [OpStart 5; OpClock 10; OpIntercept true; OpUpdate] = Ok (s, [Started 1 0 5; Fired 1 10]) /\
  exists s' ev, run tstep s (replicate n (OpStart 7)) = Ok (s', ev) /\ callbacks 1 ev = n /\
    length (t_stack s') = S n.
Proof. exact timers_recursion. Qed.

(** (2) Cancelling a timer inside its own callback (the assertion in
    cancel_timer holds) runs the callback twice and then corrupts the list. *)
Theorem C14_self_cancel_refuted : exists ops s ev,
  run tstep tinit ops = Ok (s, ev) /\ callbacks 1 ev = 2 /\
  run tstep tinit (ops ++ [OpReturn; OpReturn]) = Crash.
Proof.
  exists [OpStart 5; OpClock 10; OpUpdate; OpCancel 1]. eexists _, _.
  split; [vm_compute; reflexivity|]. split; vm_compute; reflexivity.
Qed.

(** (3) The interval is not kept on the wall clock: outside a blocking handler a timer counts from the
    last reading, and if a handler has run for longer than the interval before it starts the timer, then
    the timer fires at once, with no time since the call. *)
Theorem C13_wall_refuted : exists ops s ev s', run tstep tinit ops = Ok (s, ev) /\
  run tstep s [OpStart 3; OpUpdate] = Ok (s', [Started 1 0 3; Fired 1 7]) /\ t_clock s' = t_clock s.
Proof.
  exists [OpClock 7]. eexists _, _, _. split; [vm_compute; reflexivity|]. split; vm_compute; reflexivity.
Qed.

(** The same calls in a blocking handler. *)
Example C13_blocking : exists s, run tstep tinit [OpIntercept true; OpClock 7; OpStart 3; OpUpdate] = Ok (s, [Started 1 7 3]).
Proof. eexists. vm_compute. reflexivity. Qed.

Print Assumptions C13_timer_never_fires_early.
Print Assumptions C13_timers_fire_in_deadline_order.
Print Assumptions C13_present.
Print Assumptions C13_clock.
Print Assumptions C13_wall_refuted.
Print Assumptions C14_timers_never_crash.
Print Assumptions C14_timer_called_back_once.
Print Assumptions C14_no_overdue_timer_when_idle.
Print Assumptions C14_known.
Print Assumptions C14_distinct.
Print Assumptions C14_once_while_intercepting_refuted.
Print Assumptions C14_restart_while_intercepting_recurses.
Print Assumptions C14_self_cancel_refuted.
