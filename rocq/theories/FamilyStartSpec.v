(** Vocabulary of C75: whom a supervisor which initializes waits for. *)
From stdpp Require Import base list gmap.
From Verif Require Import Base ChildMgrModel FamilyModel FamilySpec.
Open Scope N_scope.

(** The supervisor holds its init request, and its child manager does not agree: a child
    on the list is initializing (child_manager.cpp 364, 455-470). *)
Definition waiting (s : cstate) : Prop := cm_state s = AInitializing /\ cm_initreq s = true /\ has_initializing s = true.

(** The child has its init request in hand, and the supervisor the timer. *)
Definition busy (s : fstate) (c : N) : Prop := c ∈ f_init s /\ exists ch, cm_children (f_cm s) !! c = Some ch /\ ch_initreq ch = true.
(** The child was asked to end, and does. *)
Definition leaving (s : fstate) (c : N) : Prop := state_of s c = Some AShuttingDown.

(** The supervisor has answered its own init request with an error, or has decided to
    end. *)
Definition failed (ev : list cevent) : Prop := EInitError ∈ ev \/ ESelfShutdown ∈ ev.

(** On the list of children. *)
Definition listed (c : N) (ev : list cevent) : Prop := ECreated c ∈ ev /\ forall k abn ask, ERemoved c k abn ask ∉ ev.

(** A child on the list whose init response the supervisor has not taken. *)
Definition unanswered (s : cstate) (c : N) : Prop :=
  c <> 0 /\ exists i, cm_map s !! c = Some i /\ ci_actor i = Some c /\ ci_initialized i = false.
