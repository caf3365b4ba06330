(** Vocabulary of C82: when a whole tree of supervisors can become operational. *)
From stdpp Require Import base list gmap.
From Verif Require Import Base ChildMgrModel FamilyModel FamilySpec FamilyStartSpec FamilyUpSpec TreeModel TreeSpec TreeUpSpec TreeTopSpec.
Open Scope N_scope.

(** No supervisor with synchronized start has started. *)
Definition unstarted (sync : list N -> bool) (t : tstate) : Prop := forall n nd, t !! n = Some nd -> sync n = true -> sup_state nd <> AOperational.

(** A start which goes well, up to the actors. *)
Definition tsmooth_all (o : top) : Prop := tsmooth o \/ exists n c, o = TOp n (FChildStart c).

(** Everybody works, except those who had ended before. *)
Definition all_up (t : tstate) : Prop :=
  (exists rd, t !! [] = Some rd /\ sup_state rd = AOperational) /\
  forall n nd c st, t !! n = Some nd -> c <> 0 -> state_of (n_fam nd) c = Some st -> st = AOperational \/ st = AShutDown.

(** The supervisor has had its start: it works, or ends, or has ended. *)
Definition past (st : astate) : Prop := match st with AOperational | AShuttingDown | AShutDown => True | _ => False end.

(** A supervisor starts when none of its actors initializes any more. With synchronized start this is
    when it sends the triggers, and who initializes ignores one (starter.cpp 72-76,
    C82_told_early_refuted). *)
Definition settled_in (t : tstate) (n : list N) : Prop := forall nd c, t !! n = Some nd -> c <> 0 -> state_of (n_fam nd) c <> Some AInitializing.
Definition timely (t : tstate) (o : top) : Prop := match o with TOp n FStarted => settled_in t n | TStarted n c => settled_in t (c :: n) | _ => True end.
Definition tidy_timely (t : tstate) (o : top) : Prop := tidy_told t o /\ timely t o.

(** The supervisor is on its way up, or there. *)
Definition coming (st : astate) : Prop := st = AInitializing \/ st = AInitialized \/ st = AOperational.
