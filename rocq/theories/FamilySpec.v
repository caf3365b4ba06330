(** Vocabulary of C52 and C53: rules under which the child manager of a supervisor is
    safe, and what "settled" means. *)
From stdpp Require Import base list gmap.
From Verif Require Import Base ChildMgrModel FamilyModel.
Open Scope N_scope.

Definition is_timeout (m : fmsg) : Prop := match m with MInitTimeout _ => True | _ => False end.
Global Instance is_timeout_dec m : Decision (is_timeout m).
Proof. destruct m; simpl; apply _. Defined.

(** The rules:
    - a child answers its shutdown request before the timeout;
    - the timeout of an init request does not overtake: when it fires, the
      supervisor has processed its queue (except for other timeouts);
    - when the supervisor takes itself off its list of children, no trigger for its
      own shutdown is in its queue. *)
Definition orderly (s : fstate) (o : fop) : Prop :=
  match o with
  | FShutTimer _ => False
  | FInitTimer _ => Forall is_timeout (f_q s)
  | FDeactivate _ _ => MTrigger 0 ∉ f_q s
  | _ => True
  end.
Global Instance orderly_dec s o : Decision (orderly s o).
Proof. destruct o; simpl; apply _. Defined.

(** No message is under way, and the supervisor still listens. *)
Definition settled (s : fstate) : Prop :=
  f_q s = [] /\ (forall c, upl s c = [] /\ downl s c = []) /\ 0 ∉ f_bye s.

Definition state_of (s : fstate) (c : N) : option astate := ch_state <$> cm_children (f_cm s) !! c.
Definition shutting (s : fstate) (c : N) : Prop := exists st, state_of s c = Some st /\ (st = AShuttingDown \/ st = AShutDown).
