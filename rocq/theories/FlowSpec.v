(** Vocabulary of C64: how many messages a supervisor and its children exchange. *)
From stdpp Require Import base list gmap.
From Verif Require Import Base ChildMgrModel FamilyModel.
Open Scope nat_scope.

(** A message is taken from a queue. *)
Definition moved (s : fstate) (o : fop) : nat :=
  match o with
  | FDeliver _ _ _ _ _ _ _ => match f_q s with [] => 0 | _ => 1 end
  | FChild c _ _ => match downl s c with [] => 0 | _ => 1 end
  | FUp c => match upl s c with [] => 0 | _ => 1 end
  | _ => 0
  end.
(** A child is created. *)
Definition is_created (e : cevent) : bool := match e with ECreated _ => true | _ => false end.
Definition births (e : list cevent) : nat := length (List.filter is_created e).
(** What is not caused by a message: calls of users, timers of spawners, the parent. *)
Definition outside (o : fop) : nat :=
  match o with
  | FSpawn _ | FFire _ | FParentInit => 3
  | FShutdown _ | FLeave => 2
  | _ => 0
  end.

(** A spawner which has a limit, and how many instances it may make. *)
Definition limited (c : scfg) : bool := (0 <? sc_max c)%N || bool_decide (sc_policy c = RNever).
Definition quota (c : scfg) : nat := if bool_decide (sc_policy c = RNever) then 1 else N.to_nat (sc_max c).
(** How many children an operation may bring, at once or later. *)
Definition offspring (o : fop) : nat := match o with FCreate _ _ => 1 | FSpawn cfg => quota cfg | _ => 0 end.
Definition limited_op (o : fop) : bool := match o with FSpawn cfg => limited cfg | _ => true end.
(** A spawner which always restarts, at once, without a limit. *)
Definition endless_cfg : scfg := SCfg RAlways 0 0 false.
(** Messages, and what a child does when its last handler is gone. *)
Definition by_messages (o : fop) : bool := match o with FDeliver _ _ _ _ _ _ _ | FChildDone _ => true | _ => false end.

Section moves.
Context (has_parent : bool) (policy : spolicy) (sync : bool).
Fixpoint moves (s : fstate) (ops : list fop) : nat :=
  match ops with
  | [] => 0
  | o :: r => moved s o + match fstep has_parent policy sync s o with Ok (s', _) => moves s' r | _ => 0 end
  end.
End moves.
