(** Vocabulary of C74: when a tree of supervisors which is told to end can end. *)
From stdpp Require Import base list gmap.
From Verif Require Import Base ChildMgrModel FamilyModel FamilySpec TreeModel TreeSpec FamilyEndSpec.
Open Scope N_scope.

(** Somewhere in the tree a spawner counts as alive for ever, at a supervisor which has
    not agreed to end. *)
Definition lost_at (t : tstate) (n : list N) (a : N) : Prop :=
  exists nd, t !! n = Some nd /\ f_phase (n_fam nd) = PWorking /\ lost (f_cm (n_fam nd)) a.

(** What needs neither users nor timers: messages are taken, actors finish, supervisors
    vote, leave and finish.  No new actor is made. *)
Definition tinternal (o : top) : Prop :=
  match o with
  | TOp _ FLeave => True
  | TOp _ o => internal o
  | TDone _ _ => True
  | _ => False
  end.

(** The supervisor [r] has ended, the supervisors below it too, and all the actors they
    ever had. *)
Definition all_over (t : tstate) (r : list N) : Prop :=
  forall l m, t !! (l ++ r) = Some m -> sup_state m = AShutDown /\ forall c, ECreated c ∈ n_ev m -> state_of (n_fam m) c = Some AShutDown.

(** No restart timer fires while its supervisor shuts down. *)
Definition tpunctual (t : tstate) (o : top) : Prop :=
  match o with TOp n o => match t !! n with Some nd => punctual (n_fam nd) o | None => True end | _ => True end.
Global Instance tpunctual_dec t o : Decision (tpunctual t o).
Proof. destruct o as [n o| | | |]; simpl; try apply _. destruct (t !! n); apply _. Defined.
