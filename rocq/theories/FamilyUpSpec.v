(** Vocabulary of C78: when a supervisor which initializes can become operational. *)
From stdpp Require Import base list gmap.
From Verif Require Import Base ChildMgrModel FamilyModel FamilySpec FamilyStartSpec.
Open Scope N_scope.

(** Messages of a start which goes well. *)
Definition good_news (m : fmsg) : Prop :=
  match m with MCreate _ | MSpawn _ | MInitReq _ | MInitResp _ false => True | _ => False end.

(** Nobody ends: only such messages are under way, the supervisor listens, and no child
    is on its way out. *)
Definition peaceful (s : fstate) : Prop :=
  Forall good_news (f_q s) /\ (forall c, Forall good_news (upl s c)) /\ (forall c, Forall good_news (downl s c)) /\
  0 ∉ f_bye s /\ forall c, c <> 0 -> state_of s c <> Some AShuttingDown.

(** What happens in such a start: messages are taken, factories make their actors,
    children answer that they are ready, the parent asks the supervisor to initialize,
    the supervisor answers and starts.  No timer, no user. *)
Definition smooth (o : fop) : Prop :=
  match o with
  | FDeliver ok _ early _ _ _ _ => ok = true /\ early = false
  | FChildInit _ failed => failed = false
  | FChild _ _ _ | FUp _ | FParentInit | FInitialized | FStarted => True
  | _ => False
  end.

(** The rules of C52, and: the supervisor answers its init request only when its child
    manager agrees (child_manager.cpp 364). *)
Definition agreed (s : fstate) (o : fop) : Prop :=
  orderly s o /\ match o with FInitialized => has_initializing (f_cm s) = false | _ => True end.

(** Events of such a start: nobody is asked to end, nobody fails, nobody is removed. *)
Definition good_event (e : cevent) : Prop :=
  match e with
  | EAttempt _ _ | EInstance _ _ _ | ECreated _ | EInitReq _ | EInitOk _ | ESupStart | EStart _ | EInitContinue => True
  | _ => False
  end.
