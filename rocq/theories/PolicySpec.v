(** Vocabulary of C76: the policy of a supervisor (policy.h 12-20). *)
From stdpp Require Import base list gmap.
From Verif Require Import Base ChildMgrModel.
Open Scope N_scope.

(** The supervisor neither answers its init request with an error nor asks for its own
    end. *)
Definition quiet (e : list cevent) : Prop := EInitError ∉ e /\ ESelfShutdown ∉ e.

(** What the removal of a child does to a supervisor which initializes. *)
Definition reacts (policy : spolicy) (s s' : cstate) (i : cinfo) (e : list cevent) : Prop :=
  if ci_started i then quiet e
  else match policy with
  | PShutdownFailed => ESelfShutdown ∈ e
  | PShutdownSelf => if cm_initreq s then EInitError ∈ e /\ cm_initreq s' = false else quiet e
  end.
