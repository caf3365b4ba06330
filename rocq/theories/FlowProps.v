(** C64: the messages of a supervisor and its children run out. *)
From stdpp Require Import base list gmap.
From Verif Require Import Base ChildMgrModel ChildMgrProofs FamilyModel FlowSpec FlowInv FlowProofs FlowQuota FlowEndless.
Open Scope nat_scope.

(** Every message which is taken is paid for: by what was there at the beginning, by
    a call from outside, or by a child which was born. *)
Theorem C64_moves : forall hp policy sync ops s ev, run (fstep hp policy sync) (finit hp) ops = Ok (s, ev) ->
  moves hp policy sync (finit hp) ops <= (if hp then 28 else 40) + sum_list_with outside ops + 36 * births ev.
Proof. exact flow_total. Qed.

(** Hence, with spawners which have a limit, the number of messages is bounded by what
    the users did, whatever the order, the timers, the answers and the failures. *)
Theorem C64_limited : forall hp policy sync ops s ev, forallb limited_op ops = true -> run (fstep hp policy sync) (finit hp) ops = Ok (s, ev) ->
  births ev <= sum_list_with offspring ops /\
  moves hp policy sync (finit hp) ops <= (if hp then 28 else 40) + sum_list_with (fun o => outside o + 36 * offspring o) ops.
Proof. exact flow_limited_moves. Qed.

(** From every reachable state: when nobody calls from outside and no child is born,
    only so many messages can follow, and how many does not depend on the choices. *)
Theorem C64_stops : forall hp policy sync ops s ev, run (fstep hp policy sync) (finit hp) ops = Ok (s, ev) ->
  exists n, forall ops' s' ev', run (fstep hp policy sync) s ops' = Ok (s', ev') -> sum_list_with outside ops' = 0 -> births ev' = 0 ->
    moves hp policy sync s ops' <= n.
Proof. exact flow_stops. Qed.

(** Without a limit it is different: a spawner without a pause between its instances
    makes as many of them as one likes, in one go, by messages alone. *)
Theorem C64_endless : forall policy n, exists s0 e0 ops s e, run (fstep false policy false) (finit false) endless_start = Ok (s0, e0) /\
  run (fstep false policy false) s0 ops = Ok (s, e) /\ Forall (fun o => by_messages o = true) ops /\ births e = n.
Proof. exact endless_run. Qed.

(** A supervisor with a spawner which makes its two instances, a child with a locality
    of its own, and its end: 30 messages, three births, nothing left. *)
Definition day : list fop :=
  let d := FDeliver true false true false false false false in
  [d; FInitialized; d; FStarted; FSpawn (SCfg RAlways 0 2 false); d; d; d; d; d; d; FChildDone 2; d; d; d; d; d; d; d; FChildDone 3; d;
   FCreate true false; d; d; FChild 4 false false; FChildInit 4 false; FUp 4; d; FChildStart 4; FShutdown 0; d; d; FVote;
   FChild 4 false true; FChild 4 false true; FChildDone 4; FUp 4; FUp 4; d; d; FVote; FDeactivate true false; d; FShutDown].
Example C64_day : match run (fstep false PShutdownSelf false) (finit false) day with
  | Ok (s, e) => (moves false PShutdownSelf false (finit false) day, births e, f_q s, bool_decide (cm_state (f_cm s) = AShutDown),
                  40 + sum_list_with (fun o => outside o + 36 * offspring o) day, forallb limited_op day)
  | _ => (0, 0, [], false, 0, false) end = (30, 3, [], true, 153, true).
Proof. vm_compute. done. Qed.
(** The bound of C64_stops is not zero: a message which waits can be taken. *)
Example C64_waits : match run (fstep false PShutdownSelf false) (finit false) [FCreate true true] with
  | Ok (s, _) => let ops := [FDeliver true false true false false false false; FUp 1; FDeliver true false true false false false false; FDeliver true false true false false false false] in
                 moves false PShutdownSelf false s ops
  | _ => 0 end = 4.
Proof. vm_compute. done. Qed.

Print Assumptions C64_moves.
Print Assumptions C64_limited.
Print Assumptions C64_stops.
Print Assumptions C64_endless.
