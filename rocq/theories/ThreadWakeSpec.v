(** Vocabulary of C15, independent of the protocol's inner states where possible. *)
From stdpp Require Import base list gmap.
From Verif Require Import Base ThreadWakeModel.
Open Scope N_scope.

(** Thread [t] is between its push and its notification. *)
Definition before_notify (s : wstate) (t : N) : Prop :=
  w_enq s !! t = Some EPushed \/ w_enq s !! t = Some ELocked.

(** The loop is blocked: it sleeps, and no notification is on its way. *)
Definition asleep (s : wstate) : Prop := w_pc s = LSleep /\ w_notified s = false.

(** The messages addressed to actors of supervisor [sup], in the order in which
    their [push] happened (a thread which is already inside [enqueue] cannot
    start another one). *)
Fixpoint pushed (sup : N) (s : wstate) (ops : list wop) : list N :=
  match ops with
  | [] => []
  | o :: rest =>
      let tl := match wstep s o with Ok (s', _) => pushed sup s' rest | _ => [] end in
      match o with
      | WPush t sup' m =>
          if bool_decide (w_enq s !! t = None) && N.eqb sup' sup then m :: tl else tl
      | _ => tl
      end
  end.

Definition dispatched (ev : list wevent) : list N := (fun '(WDispatched m) => m) <$> ev.

(** The mutex really excludes: its holder is the one thread inside. *)
Definition in_critical (s : wstate) (o : owner) : Prop :=
  match o with
  | OwnLoop => w_pc s ∈ [LCheck; LWait; LLast; LUnlock]
  | OwnThread t => w_enq s !! t = Some ELocked \/ w_enq s !! t = Some ENotified
  end.
