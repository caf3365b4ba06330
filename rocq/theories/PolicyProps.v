(** C76: what the policy of a supervisor does while it initializes. *)
From stdpp Require Import base list gmap.
From Verif Require Import Base ChildMgrModel ChildMgrSpec ChildMgrProofs ChildMgrFacts FamilyModel FamilySpec FamilyInv FamilyProofs FamilyInit FamilyProps PolicySpec PolicyProofs.
Open Scope N_scope.
Notation runs hp policy sync ops s ev := (run (cstep hp policy sync) (cinit hp) ops = Ok (s, ev)).

(** An actor leaves the list of a supervisor which initializes.  If it was started,
    the supervisor does not react.  If it was not: with the policy shutdown_failed the
    supervisor asks for its own end; with shutdown_self it answers its init request with
    an error if it holds one, and does not react if it does not. *)
Theorem C76_removed : forall hp policy sync ops s ev o s' e c k abn ask i, runs hp policy sync ops s ev -> cm_state s = AInitializing ->
  cstep hp policy sync s o = Ok (s', e) -> ERemoved c k abn ask ∈ e -> cm_map s !! c = Some i -> reacts policy s s' i e.
Proof.
  intros hp policy sync ops s ev o s' e c k abn ask i H Hs Hst He Hi. eapply step_reacts; [|done..].
  eapply cinv_moves, cinv_init. eapply (run_moves hp policy sync False); [apply cinv_init|exact H|done].
Qed.

(** A child answers its init request with an error while its supervisor initializes. *)
Theorem C76_self : forall hp sync s c s' e, cm_state s = AInitializing -> c <> 0 -> c ∈ cm_initout s ->
  cstep hp PShutdownSelf sync s (OOnInit c true) = Ok (s', e) ->
  if cm_initreq s then e = [EInitError] /\ cm_initreq s' = false else e = [ESelfShutdown].
Proof. intros hp sync s c s' e. exact (init_reacts hp PShutdownSelf sync s c s' e). Qed.
Theorem C76_failed_partial : forall hp sync s c s' e i d, cm_state s = AInitializing -> c <> 0 -> c ∈ cm_initout s ->
  cstep hp PShutdownFailed sync s (OOnInit c true) = Ok (s', e) -> cm_map s !! c = Some i -> ci_actor i = Some d -> d <> 0 -> quiet e.
Proof.
  intros hp sync s c s' e i d Hs Hc Ho H Hi Hd Hd0. pose proof (init_reacts hp PShutdownFailed sync s c s' e Hs Hc Ho H) as R. cbn in R. rewrite Hi in R. by eapply R.
Qed.

(** "shutdown a failed child and continue initialization" (policy.h 18): the supervisor
    which has this policy and no other child ends because of the failed one. *)
Definition one_fails : list fop := [FCreate false false; D; D; D; FChildInit 1 true; D; D; D; D; FChildDone 1; D; D; D; D; D].
Theorem C76_continue_refuted : exists ops s ev, guarded (fstep false PShutdownFailed false) orderly (finit false) ops /\
  run (fstep false PShutdownFailed false) (finit false) ops = Ok (s, ev) /\ (forall c, FShutdown c ∉ ops) /\
  ESelfShutdown ∈ ev /\ cm_state (f_cm s) = AShuttingDown.
Proof.
  exists one_fails. assert (exists s ev, run fs (finit false) one_fails = Ok (s, ev) /\ (ESelfShutdown ∈ ev /\ cm_state (f_cm s) = AShuttingDown)) as (s & ev & H & H1) by by_outcome.
  exists s, ev. split; [by_guard|]. split; [exact H|]. split; [|exact H1]. intros c. unfold one_fails, D. rewrite !elem_of_cons, elem_of_nil. intros Hx. repeat (destruct Hx as [Hx|Hx]; [discriminate|]). done.
Qed.

(** "shutdown supervisor (and all its actors) if a child-actor fails during supervisor
    initialization phase" (policy.h 13-15): a child which ends with an error before the init request
    of its supervisor has arrived is forgotten, and the supervisor gets operational. *)
Definition one_leaves : list fop := [FCreate false false; D; FShutdown 1; D; D; D; D; D; FChildDone 1; D; D; D; FParentInit; FInitialized; FStarted].
Theorem C76_silent_refuted : exists ops s ev, guarded (fstep true PShutdownSelf false) orderly (finit true) ops /\
  run (fstep true PShutdownSelf false) (finit true) ops = Ok (s, ev) /\ ERemoved 1 None true false ∈ ev /\ EInitOk 1 ∉ ev /\ quiet ev /\ cm_state (f_cm s) = AOperational.
Proof.
  exists one_leaves.
  assert (Hx : match run (fstep true PShutdownSelf false) (finit true) one_leaves with Ok (s, ev) => bool_decide (ERemoved 1 None true false ∈ ev /\ EInitOk 1 ∉ ev /\ (EInitError ∉ ev /\ ESelfShutdown ∉ ev) /\ cm_state (f_cm s) = AOperational) | _ => false end = true)
    by (vm_compute; reflexivity).
  destruct (run (fstep true PShutdownSelf false) (finit true) one_leaves) as [[s ev]| |]; try done. exists s, ev. split; [by_guard|]. split; [done|]. by apply bool_decide_eq_true_1 in Hx.
Qed.
(** The same after the request has arrived is answered with an error. *)
Definition one_leaves_late : list fop := [FParentInit; FCreate false false; D; FShutdown 1; D; D; D; D; D; FChildDone 1; D; D; D].
Example C76_error_ex : guarded (fstep true PShutdownSelf false) orderly (finit true) one_leaves_late /\ exists s ev,
  run (fstep true PShutdownSelf false) (finit true) one_leaves_late = Ok (s, ev) /\ ERemoved 1 None true false ∈ ev /\ EInitError ∈ ev.
Proof.
  split; [by_guard|].
  assert (Hx : match run (fstep true PShutdownSelf false) (finit true) one_leaves_late with Ok (s, ev) => bool_decide (ERemoved 1 None true false ∈ ev /\ EInitError ∈ ev) | _ => false end = true) by (vm_compute; reflexivity).
  destruct (run (fstep true PShutdownSelf false) (finit true) one_leaves_late) as [[s ev]| |]; try done. exists s, ev. split; [done|]. by apply bool_decide_eq_true_1 in Hx.
Qed.

Print Assumptions C76_removed.
Print Assumptions C76_self.
Print Assumptions C76_failed_partial.
Print Assumptions C76_continue_refuted.
Print Assumptions C76_silent_refuted.
