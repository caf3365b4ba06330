(** Vocabulary of C73: when a supervisor which is told to end can end. *)
From stdpp Require Import base list gmap.
From Verif Require Import Base ChildMgrModel ChildMgrSpec FamilyModel FamilySpec.
Open Scope N_scope.

(** A spawner which counts as alive for ever: it has no actor, waits for no timer, may
    still make actors, and no message asks it to (child_manager.cpp 470-483: such an
    entry of actors_map is counted by active_actors until the supervisor is gone). *)
Definition lost (s : cstate) (a : N) : Prop :=
  exists i, cm_map s !! a = Some i /\ ci_actor i = None /\ ci_timer i = 0 /\ ci_active i = true /\ a ∉ cm_spawnq s.

(** What needs neither users nor timers nor the parent: messages are taken, children
    finish, the supervisor's own shutdown goes on.  No new actor is made. *)
Definition internal (o : fop) : Prop :=
  match o with
  | FDeliver ok _ _ _ _ _ _ => ok = false
  | FChild _ _ _ | FUp _ | FChildDone _ | FVote | FDeactivate _ _ | FShutDown => True
  | _ => False
  end.
(** The same without the supervisor. *)
Definition of_children (o : fop) : Prop :=
  match o with FDeliver ok _ _ _ _ _ _ => ok = false | FChild _ _ _ | FUp _ | FChildDone _ => True | _ => False end.

(** The supervisor has ended, and every child before it. *)
Definition over (s : fstate) (ev : list cevent) : Prop :=
  cm_state (f_cm s) = AShutDown /\ 0 ∈ f_bye s /\ forall c, ECreated c ∈ ev -> state_of s c = Some AShutDown /\ removed c ev.

(** Every actor of the list was asked to end, and no spawner waits. *)
Definition all_asked (s : cstate) : Prop :=
  forall a i, cm_map s !! a = Some i ->
    match ci_actor i with Some _ => ci_shut i <> SNone | None => ci_active i = false /\ ci_timer i = 0 end.

(** A restart timer fires while the supervisor shuts down. *)
Definition punctual (s : fstate) (o : fop) : Prop :=
  match o with FFire _ => rank (cm_state (f_cm s)) <= 4 | _ => True end.
Global Instance punctual_dec s o : Decision (punctual s o).
Proof. destruct o; simpl; apply _. Defined.

(** The factory of a spawner fails while the supervisor shuts down, and the spawner
    gives up: child_manager.cpp 210-253 tells nobody (C31_hang_refuted). *)
Definition gives_up (s : fstate) (o : fop) : Prop :=
  match o with
  | FDeliver false _ _ _ _ _ _ => exists a i, a ∈ cm_spawnq (f_cm s) /\ cm_map (f_cm s) !! a = Some i /\ ci_actor i = None /\ ci_active i = true /\
      sc_policy (ci_cfg i) <> RAlways /\ sc_policy (ci_cfg i) <> RFailOnly
  | _ => False
  end.
