(** Vocabulary of C72: how many messages there are in a whole world, of supervisors and of
    actors which link to each other. *)
From stdpp Require Import base list gmap.
From Verif Require Import Base ChildMgrModel FamilyModel FlowSpec TreeModel FlowTreeSpec ActorModel NetModel CostSpec SystemModel WorldModel.
Open Scope nat_scope.

(** A message is taken from a queue: by a supervisor, by a child from its supervisor, or by an
    actor from another actor. *)
Definition zmoved (z : world) (o : zop) : nat :=
  match o with
  | ZTree (TOp n fo) => if by_child fo then 0 else tmoved (z_t z) (TOp n fo)
  | ZTree _ => 0
  | ZNet o => length (taken (z_w z) o)
  end.
(** What is not caused by a message: calls of users and timers at the supervisors, ... *)
Definition zout (o : zop) : nat := match o with ZTree o => tout o | ZNet _ => 0 end.
(** ... and user code and answers of the registry at the actors. *)
Definition zcredit (o : zop) : nat := match o with ZNet o => ncredit o | ZTree _ => 0 end.
Definition zoffspring (o : zop) : nat := match o with ZTree o => toffspring o | ZNet _ => 0 end.
Definition zlimited (o : zop) : bool := match o with ZTree o => tlimited o | ZNet _ => true end.
(** An actor calls do_shutdown because it lost a link. *)
Definition is_do (x : aev) : bool := match x with EvDoShutdown => true | _ => false end.

Section moves.
Context (pol : list N -> spolicy) (sync : list N -> bool) (sup_at : list N -> N -> bool).
Context (cfg : N -> plug -> list uact) (ra : N) (unl : N -> bool).
Fixpoint zmoves (z : world) (ops : list zop) : nat :=
  match ops with
  | [] => 0
  | o :: r => zmoved z o + match zstep pol sync sup_at cfg ra unl z o with Ok (z', _) => zmoves z' r | _ => 0 end
  end.
End moves.
