(** Vocabulary of C81: in which order the actors of a tree of supervisors start. *)
From stdpp Require Import base list gmap.
From Verif Require Import Base ChildMgrModel FamilyModel FamilySpec TreeModel TreeSpec.
Open Scope N_scope.

(** The child manager of [n] has sent the start trigger to child [c] (child_manager.cpp
    295-302, 440-453). *)
Definition triggered (t : tstate) (n : list N) (c : N) : Prop := exists nd, t !! n = Some nd /\ EStart c ∈ n_ev nd.

(** An actor below the root starts when it takes this trigger (starter.cpp 72-86), not
    otherwise.  Nothing is said about the root. *)
Definition told (t : tstate) (o : top) : Prop :=
  match o with
  | TStarted n c | TOp n (FChildStart c) => triggered t n c
  | _ => True
  end.
Definition tidy_told (t : tstate) (o : top) : Prop := tidy t o /\ told t o.
