(** Vocabulary of C56: rules for a tree of supervisors. *)
From stdpp Require Import base list gmap.
From Verif Require Import Base ChildMgrModel FamilyModel FamilySpec TreeModel.
Open Scope N_scope.

(** Children are created only before the child manager has agreed to the shutdown of its
    supervisor. *)
Definition timely (s : fstate) (o : fop) : Prop :=
  match o with FCreate _ _ | FSpawn _ => f_phase s = PWorking | _ => True end.
Global Instance timely_dec s o : Decision (timely s o).
Proof. destruct o; simpl; apply _. Defined.

(** Every supervisor obeys the rules of FamilySpec.v, and [timely]. *)
Definition tidy (t : tstate) (o : top) : Prop :=
  match o with
  | TOp n o => match t !! n with Some nd => orderly (n_fam nd) o /\ timely (n_fam nd) o | None => True end
  | _ => True
  end.
Global Instance tidy_dec t o : Decision (tidy t o).
Proof. destruct o as [n o| | | |]; simpl; try apply _. destruct (t !! n); apply _. Defined.

Definition sup_state (m : node) : astate := cm_state (f_cm (n_fam m)).
