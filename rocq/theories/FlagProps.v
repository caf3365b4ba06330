(** C40: the shutdown flag. *)
From stdpp Require Import base list gmap.
From Verif Require Import Base FlagModel FlagSpec FlagProofs.

(** There is never more than one poll timer; an operational supervisor with a
    flag not seen set has exactly one; without a flag, before the start, after
    the end and after the flag was seen there is none. *)
Theorem C40_one_timer : forall b ops s ev, run fstep (finit b) ops = Ok (s, ev) ->
  length (poll_timers s) <= 1 /\
  (b = true -> f_state s = SOperational -> seen ev = false -> length (poll_timers s) = 1) /\
  (b = false \/ f_state s = SInit \/ f_state s = SShutDown \/ seen ev = true -> poll_timers s = []).
Proof. exact one_timer. Qed.

(** The polls see "not set" some number of times, then at most once "set". *)
Theorem C40_first_seen : forall b ops s ev, run fstep (finit b) ops = Ok (s, ev) ->
  exists n, polls ev = replicate n false ++ (if seen ev then [true] else []).
Proof. exact first_seen. Qed.

(** The shutdown is triggered at most once, only if the flag was seen; and if the
    supervisor still is operational, exactly once. *)
Theorem C40_triggered_once : forall b ops s ev, run fstep (finit b) ops = Ok (s, ev) ->
  count is_trigger ev <= (if seen ev then 1 else 0) /\
  (f_state s = SOperational -> seen ev = true -> count is_trigger ev = 1).
Proof. exact triggered_once. Qed.

(** One poll: the trigger is sent at the poll which sees the flag; otherwise the
    timer is armed again. *)
Theorem C40_poll : forall ops s ev id flag, run fstep (finit true) ops = Ok (s, ev) -> f_state s = SOperational ->
  In id (poll_timers s) ->
  exists s', fstep s (OFire id flag) =
    Ok (s', if flag then [EPoll true; ETrigger] else [EPoll false; EArm (N.succ (f_last s))]) /\
    poll_timers s' = if flag then [] else [N.succ (f_last s)].
Proof. exact poll_step. Qed.

(** Non-vacuity. *)
Example C40_example : exists s,
  run fstep (finit true) [OStartTrigger; OUserStart; OFire 1 false; OStartTrigger; OFire 1 true; OFire 3 false; OUserCancel 2;
                          OFire 4 true; OShutdownRequest; OFinish] =
  Ok (s, [EArm 1; EPoll false; EArm 3; EPoll false; EArm 4; EUser 2 true; EPoll true; ETrigger]) /\ f_state s = SShutDown.
Proof. eexists. split; [by vm_compute|]. done. Qed.
Example C40_example_other_shutdown : exists s,
  run fstep (finit true) [OStartTrigger; OShutdownRequest; OFire 1 false; OFire 2 true; OFinish] =
  Ok (s, [EArm 1; EPoll false; EArm 2; EPoll true]) /\ f_state s = SShutDown.
Proof. eexists. split; [by vm_compute|]. done. Qed.

Print Assumptions C40_one_timer.
Print Assumptions C40_first_seen.
Print Assumptions C40_triggered_once.
Print Assumptions C40_poll.
