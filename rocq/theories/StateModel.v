(** States of an actor: include/rotor/state.h 11-19.  The numbers are those of the
    enumeration; the code compares states with < and <=. *)
From stdpp Require Import base decidable.
From Coq Require Import NArith.
Open Scope N_scope.

Inductive astate := ANew | AInitializing | AInitialized | AOperational | AShuttingDown | AShutDown.
Global Instance astate_eq_dec : EqDecision astate.
Proof. solve_decision. Defined.
Definition rank (s : astate) : N :=
  match s with ANew => 1 | AInitializing => 2 | AInitialized => 3 | AOperational => 4 | AShuttingDown => 5 | AShutDown => 6 end.

