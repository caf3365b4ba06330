(** Vocabulary of C24-C28. *)
From stdpp Require Import base list gmap.
From Verif Require Import Base ErrorsModel LifeModel.
Open Scope N_scope.

(** The life cycle of include/rotor/state.h; shutting down may begin anywhere
    before. *)
Definition legal (o n : astate) : Prop :=
  match o, n with
  | ANew, AInitializing | AInitializing, AInitialized | AInitialized, AOperational => True
  | (ANew | AInitializing | AInitialized | AOperational), AShuttingDown => True
  | AShuttingDown, AShutDown => True
  | AShutDown, AShutDown => True           (* only repeated by an enclosing loop *)
  | _, _ => False
  end.

(** The assignments to the state in [ev] lead from [o] to [n], along legal
    steps. *)
Fixpoint walk (o : astate) (ev : list levent) (n : astate) : Prop :=
  match ev with
  | [] => o = n
  | EState a b :: r => a = o /\ legal a b /\ walk b r n
  | _ :: r => walk o r n
  end.

(** An actor is asked to shut down at most once (C30), and a root supervisor
    does not start again after it has shut down. *)
Definition life_ok (s : lstate) (o : lop) : Prop :=
  match o with
  | OShutMsg _ _ => rank (l_state s) < 5
  | OShutSelf _ => rank (l_state s) < 6
  | _ => True
  end.

(** Is the reaction of plugin [p] on after the trace? *)
Definition wants_upd (k : kind) (p : nat) (b : bool) (x : levent) : bool :=
  match x with
  | EReact k' p' on => if decide (k' = k /\ p' = p) then on else b
  | _ => b
  end.
Definition wants (k : kind) (p : nat) (ev : list levent) : bool := foldl (wants_upd k p) false ev.

(** Loop [f] is done with plugin [p]: it agreed or did not want to be asked. *)
Definition passed (k : kind) (f : N) (p : nat) (ev : list levent) : Prop :=
  EVote k f p true ∈ ev \/ ESkip k f p ∈ ev.
(** [q] comes before [p] in the order of the poll. *)
Definition earlier (n : nat) (k : kind) (q p : nat) : Prop :=
  match k with KInit => (q < p)%nat | _ => (p < q /\ q < n)%nat end.

Definition is_initok (x : levent) : bool := match x with EInitOk _ _ => true | _ => false end.
Definition is_shutok (x : levent) : bool := match x with EShutOk _ _ => true | _ => false end.
Definition is_initmsg (x : levent) : bool := match x with EInitMsg _ => true | _ => false end.
Definition is_initans (x : levent) : bool := match x with EInitOk _ _ | EInitErr _ => true | _ => false end.
Definition is_shutmsg (x : levent) : bool := match x with EShutMsg _ => true | _ => false end.
Definition cnt (p : levent -> bool) (ev : list levent) : nat := length (List.filter p ev).
