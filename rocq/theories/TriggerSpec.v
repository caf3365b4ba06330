(** Vocabulary of C83: when the start trigger of an actor is sent. *)
From stdpp Require Import base list gmap.
From Verif Require Import Base ChildMgrModel ChildMgrFacts FamilyModel FamilySpec.
Open Scope N_scope.

(** A supervisor ends its initialization only when its child manager agrees (child_manager.cpp 364,
    see also [ready] in TreeModel.v). *)
Definition polite (s : fstate) (o : fop) : Prop := orderly s o /\ (o = FInitialized -> handle_init (f_cm s) = true).

(** The actor has answered its init request well, or is past that. If not, it ignores a start
    trigger (starter.cpp 72-76). *)
Definition answered (s : fstate) (c : N) : Prop :=
  exists st, state_of s c = Some st /\ (st = AInitialized \/ st = AOperational \/ st = AShuttingDown \/ st = AShutDown).

(** How often an actor is told to start. *)
Definition starts (c : N) (ev : list cevent) : nat := length (List.filter (fun x => bool_decide (x = EStart c)) ev).
