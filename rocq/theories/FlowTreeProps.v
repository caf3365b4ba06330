(** C65: the messages of a tree of supervisors run out. *)
From stdpp Require Import base list gmap.
From Verif Require Import Base ChildMgrModel FamilyModel FlowSpec TreeModel TreeSpec TreeProps FlowTreeSpec FlowTreeProofs.
Open Scope nat_scope.

(** Every message which is taken anywhere in the tree is paid for: by a call from outside,
    by a supervisor which exists, or by a child which was born.  What a supervisor asks
    of its child supervisors, and what it tells its parent, needs no payment. *)
Theorem C65_moves : forall pol sync ops t ev, run (tstep pol sync) tinit ops = Ok (t, ev) ->
  tmoves pol sync tinit ops <= 12 + sum_list_with tout ops + 28 * tsups t + 36 * tborn t.
Proof. exact tree_total. Qed.

(** Every supervisor but the root is a child of another one. *)
Theorem C65_sups : forall pol sync ops t ev, guarded (tstep pol sync) tidy tinit ops -> run (tstep pol sync) tinit ops = Ok (t, ev) -> tsups t <= 1 + tborn t.
Proof. exact tree_sups. Qed.

(** Hence, if every spawner of the tree has a limit, the number of messages is bounded by
    what the users did. *)
Theorem C65_limited : forall pol sync ops t ev, forallb tlimited ops = true -> guarded (tstep pol sync) tidy tinit ops -> run (tstep pol sync) tinit ops = Ok (t, ev) ->
  tborn t <= sum_list_with toffspring ops /\ tsups t <= 1 + tborn t /\ tmoves pol sync tinit ops <= 40 + sum_list_with (fun o => tout o + 64 * toffspring o) ops.
Proof. exact tree_limited_moves. Qed.

(** From every reachable tree only so many messages can follow without a call from
    outside, a child which is born, or a new supervisor. *)
Theorem C65_stops : forall pol sync ops t ev, run (tstep pol sync) tinit ops = Ok (t, ev) ->
  exists n, forall ops' t' ev', run (tstep pol sync) t ops' = Ok (t', ev') -> sum_list_with tout ops' = 0 -> tborn t' = tborn t -> tsups t' = tsups t ->
    tmoves pol sync t ops' <= n.
Proof. exact tree_stops. Qed.

(** The life of a tree of three supervisors (TreeProps.v): messages, supervisors, births and
    the bound. *)
Definition seen (ops : list top) : nat * nat * nat * nat :=
  match run ts tinit ops with
  | Ok (t, _) => (tmoves (fun _ => PShutdownFailed) (fun _ => false) tinit ops, tsups t, tborn t, 40 + sum_list_with (fun o => tout o + 64 * toffspring o) ops)
  | _ => (0, 0, 0, 0)
  end.
Example C65_life : seen down3 = (23, 3, 3, 234) /\ forallb tlimited down3 = true /\ guarded ts tidy tinit down3.
Proof. split; [vm_compute; done|]. split; [vm_compute; done|]. by_guard. Qed.
(** One call, and all the rest of the shutdown of the three supervisors follows from it:
    nobody calls from outside, nobody is born. *)
Definition rest : list top := tail (ending ++ leave [1; 1]%N ++ [TDone [1]%N 1; D [1]%N] ++ leave [1]%N ++ [TDone [] 1; D []; TOp [] FVote]).
Example C65_rest : match run ts tinit (up3 ++ [TOp [] (FShutdown 0)]) with
  | Ok (t, _) => match run ts t rest with
                 | Ok (t', _) => (tmoves (fun _ => PShutdownFailed) (fun _ => false) t rest, sum_list_with tout rest, tborn t' - tborn t, tsups t' - tsups t)
                 | _ => (0, 0, 0, 0)
                 end
  | _ => (0, 0, 0, 0)
  end = (12, 0, 0, 0).
Proof. vm_compute. done. Qed.

Print Assumptions C65_moves.
Print Assumptions C65_sups.
Print Assumptions C65_limited.
Print Assumptions C65_stops.
