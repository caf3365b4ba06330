(** Vocabulary of C75 for a tree of supervisors. *)
From stdpp Require Import base list gmap.
From Verif Require Import Base ChildMgrModel FamilyModel FamilySpec TreeModel TreeSpec FamilyStartSpec.
Open Scope N_scope.

(** The supervisor holds its init request. *)
Definition starting (t : tstate) (n : list N) (nd : node) : Prop :=
  t !! n = Some nd /\ sup_state nd = AInitializing /\ cm_initreq (f_cm (n_fam nd)) = true.

(** No message of any supervisor is under way. *)
Definition still (t : tstate) : Prop := forall n nd, t !! n = Some nd -> settled (n_fam nd).

(** Somebody who has something to do: the supervisor itself (its child manager agrees,
    and what is left is up to its other plugins), or it has failed, or a child which is
    no supervisor has its init request in hand. *)
Definition at_work (t : tstate) (n : list N) (nd : node) : Prop :=
  has_initializing (f_cm (n_fam nd)) = false \/ failed (n_ev nd) \/ exists c, t !! (c :: n) = None /\ listed c (n_ev nd) /\ busy (n_fam nd) c.
