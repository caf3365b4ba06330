(** Vocabulary of C65: how many messages the supervisors of a tree and their children exchange. *)
From stdpp Require Import base list gmap.
From Verif Require Import Base ChildMgrModel FamilyModel FlowSpec FlowInv TreeModel.
Open Scope nat_scope.

(** A supervisor or one of its children takes a message (an operation which the tree
    refuses takes none). *)
Definition tmoved (t : tstate) (o : top) : nat :=
  match o with
  | TOp n o => match t !! n with Some nd => if shared t n o || negb (ready (n_fam nd) o) then 0 else moved (n_fam nd) o | None => 0 end
  | _ => 0
  end.
(** What is not caused by a message.  What a supervisor tells its parent and its child
    supervisors is caused by messages. *)
Definition tout (o : top) : nat := match o with TOp _ o => outside o | _ => 0 end.
(** Children born in all the supervisors of the tree. *)
Definition tborn (t : tstate) : nat := msum (fun _ nd => births (n_ev nd)) t.
(** How many supervisors there are. *)
Definition tsups (t : tstate) : nat := msum (fun _ _ => 1) t.
Definition toffspring (o : top) : nat := match o with TOp _ o => offspring o | _ => 0 end.
Definition tlimited (o : top) : bool := match o with TOp _ o => limited_op o | _ => true end.

Section moves.
Context (pol : list N -> spolicy) (sync : list N -> bool).
Fixpoint tmoves (t : tstate) (ops : list top) : nat :=
  match ops with
  | [] => 0
  | o :: r => tmoved t o + match tstep pol sync t o with Ok (t', _) => tmoves t' r | _ => 0 end
  end.
End moves.
