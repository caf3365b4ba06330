(** Vocabulary of C79: when a tree of supervisors which initializes can become
    operational. *)
From stdpp Require Import base list gmap.
From Verif Require Import Base ChildMgrModel FamilyModel FamilySpec FamilyStartSpec FamilyUpSpec TreeModel TreeSpec.
Open Scope N_scope.

(** Nobody ends, at no supervisor of the tree, and none has failed. *)
Definition tpeaceful (t : tstate) : Prop := forall n nd, t !! n = Some nd -> peaceful (n_fam nd) /\ ~ failed (n_ev nd).

(** What happens in a start which goes well: see FamilyUpSpec.v; and child supervisors
    answer their init requests and start. *)
Definition tsmooth (o : top) : Prop :=
  match o with TOp _ o => smooth o | TInited _ _ | TStarted _ _ => True | _ => False end.
