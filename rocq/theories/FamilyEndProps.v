(** C73: a supervisor which is told to end can end, exactly if no spawner is lost. *)
From stdpp Require Import base list gmap.
From Verif Require Import Base ChildMgrModel ChildMgrSpec ChildMgrProofs FamilyModel FamilySpec FamilyInv FamilyProofs FamilyEndSpec FamilyEndProofs FamilyEndMain FamilyEndFacts FamilyProps.
Open Scope N_scope.

Section props.
Context (hp : bool) (policy : spolicy) (sync : bool).
Notation fstep := (fstep hp policy sync).

Lemma reached_good ops s ev : guarded fstep orderly (finit hp) ops -> run fstep (finit hp) ops = Ok (s, ev) ->
  cm_state (f_cm s) = AShuttingDown -> f_phase s = PWorking -> (forall a, ~ lost (f_cm s) a) -> good PWorking s ev.
Proof. intros Hg H Hst Hp Hl. split; try done. by eapply fam_reach. Qed.
Lemma reached_cinv ops s ev : guarded fstep orderly (finit hp) ops -> run fstep (finit hp) ops = Ok (s, ev) -> cinv (f_cm s).
Proof. intros Hg H. pose proof (fam_reach hp policy sync ops s ev Hg H) as Hf. by destruct (fi_all _ _ Hf). Qed.
Lemma punctual_run ops : forall s s' e, cinv (f_cm s) -> no_lost (f_cm s) -> guarded fstep punctual s ops -> run fstep s ops = Ok (s', e) -> no_lost (f_cm s').
Proof.
  induction ops as [|o ops IH]; intros s s' e Hv Hl Hg H; [by injection H as <- _|]. cbn in Hg, H. destruct Hg as [Ho Hg].
  destruct (fstep s o) as [[s1 e1]| |] eqn:E; [|done..]. cbn in H. destruct (run fstep s1 ops) as [[s2 e2]| |] eqn:E2; [|done..]. injection H as <- _.
  destruct (no_lost_fstep hp policy sync s o s1 e1 Hv Ho Hl E). by eapply IH.
Qed.
Lemma no_lost_init : no_lost (f_cm (finit hp)).
Proof.
  intros a (i & Hi & Ha & _). assert (cm_map (f_cm (finit hp)) = {[0 := self_info]}) as E by (by destruct hp). rewrite E in Hi.
  apply lookup_singleton_Some in Hi as [_ <-]. done.
Qed.
Lemma cinv_finit : cinv (f_cm (finit hp)).
Proof. replace (f_cm (finit hp)) with (cinit hp) by (by destruct hp). apply cinv_init. Qed.
End props.

(** From every state in which the supervisor shuts down, and no spawner is lost, it can
    come to its end by deliveries, by children which finish, and by its own votes --
    without timers, users or the parent -- and then every child it ever had is off the
    list and has ended before it. *)
Theorem C73_ends : forall hp policy sync ops s ev, guarded (fstep hp policy sync) orderly (finit hp) ops -> run (fstep hp policy sync) (finit hp) ops = Ok (s, ev) ->
  cm_state (f_cm s) = AShuttingDown -> f_phase s = PWorking -> (forall a, ~ lost (f_cm s) a) ->
  exists ops' s' ev', Forall internal ops' /\ guarded (fstep hp policy sync) orderly s ops' /\ run (fstep hp policy sync) s ops' = Ok (s', ev') /\
    over s' (ev ++ ev') /\ EVoteShutdown true ∈ ev'.
Proof. intros hp policy sync ops s ev Hg H Hst Hp Hl. eapply ends, reached_good; done. Qed.

(** A lost spawner stays lost, and no vote succeeds any more, whatever happens. *)
Theorem C73_lost : forall hp policy sync ops s ev a, guarded (fstep hp policy sync) orderly (finit hp) ops -> run (fstep hp policy sync) (finit hp) ops = Ok (s, ev) ->
  5 <= rank (cm_state (f_cm s)) -> lost (f_cm s) a ->
  forall ops' s' ev', run (fstep hp policy sync) s ops' = Ok (s', ev') -> lost (f_cm s') a /\ EVoteShutdown true ∉ ev'.
Proof. intros hp policy sync ops s ev a Hg H Hr Hl ops' s' ev' H'. eapply lost_run; [|done..]. by eapply reached_cinv. Qed.

(** So these are the same. *)
Theorem C73_exact : forall hp policy sync ops s ev, guarded (fstep hp policy sync) orderly (finit hp) ops -> run (fstep hp policy sync) (finit hp) ops = Ok (s, ev) ->
  cm_state (f_cm s) = AShuttingDown -> f_phase s = PWorking ->
  (forall a, ~ lost (f_cm s) a) <->
  exists ops' s' ev', guarded (fstep hp policy sync) orderly s ops' /\ run (fstep hp policy sync) s ops' = Ok (s', ev') /\ EVoteShutdown true ∈ ev'.
Proof.
  intros hp policy sync ops s ev Hg H Hst Hp. split.
  - intros Hl. destruct (C73_ends hp policy sync ops s ev Hg H Hst Hp Hl) as (ops' & s' & ev' & _ & H1 & H2 & _ & H3). by exists ops', s', ev'.
  - intros (ops' & s' & ev' & _ & H2 & H3) a Hl. destruct (C73_lost hp policy sync ops s ev a Hg H ltac:(by rewrite Hst) Hl ops' s' ev' H2). done.
Qed.

(** A spawner is lost only by a restart timer which fires while the supervisor shuts
    down. *)
Theorem C73_punctual : forall hp policy sync ops s ev, guarded (fstep hp policy sync) punctual (finit hp) ops -> run (fstep hp policy sync) (finit hp) ops = Ok (s, ev) ->
  forall a, ~ lost (f_cm s) a.
Proof. intros hp policy sync ops s ev Hg H. eapply punctual_run; [|apply (no_lost_init hp)|exact Hg|exact H]. apply cinv_finit. Qed.

(** Who asks the supervisor to vote again: whenever the number of living entries of the
    list falls to one, the step which does this calls shutdown_continue -- or it is the
    factory of a spawner which fails and gives up. *)
Theorem C73_told : forall hp policy sync ops s ev o s' e, guarded (fstep hp policy sync) orderly (finit hp) ops -> run (fstep hp policy sync) (finit hp) ops = Ok (s, ev) ->
  cm_state (f_cm s) = AShuttingDown -> punctual s o -> o <> FShutDown -> fstep hp policy sync s o = Ok (s', e) ->
  (2 <= active_actors (f_cm s))%nat -> (active_actors (f_cm s') <= 1)%nat -> EShutdownContinue ∈ e \/ gives_up s o.
Proof. intros hp policy sync ops s ev o s' e Hg H. eapply told, reached_cinv; done. Qed.

(** If everybody was asked, the children alone lead to a call of shutdown_continue, and
    the vote which this causes succeeds. *)
Theorem C73_driven : forall hp policy sync ops s ev, guarded (fstep hp policy sync) orderly (finit hp) ops -> run (fstep hp policy sync) (finit hp) ops = Ok (s, ev) ->
  cm_state (f_cm s) = AShuttingDown -> f_phase s = PWorking -> all_asked (f_cm s) -> (2 <= active_actors (f_cm s))%nat ->
  exists ops' s' e s2 e2, Forall of_children ops' /\ guarded (fstep hp policy sync) orderly s ops' /\ run (fstep hp policy sync) s ops' = Ok (s', e) /\ EShutdownContinue ∈ e /\
    fstep hp policy sync s' FVote = Ok (s2, e2) /\ EVoteShutdown true ∈ e2.
Proof.
  intros hp policy sync ops s ev Hg H Hst Hp Ha H2. eapply driven; [|done..]. eapply reached_good; [done..|]. intros a (i & Hi & H3 & _ & H4 & _).
  specialize (Ha a i Hi). rewrite H3 in Ha. destruct Ha. congruence.
Qed.

(** The supervisor of a root is told to end; a spawner is made at this moment, and its
    factory throws.  The timer of the next attempt fires: the supervisor waits for ever. *)
Definition D0f : fop := FDeliver false false false false false true false.
Definition stuck : list fop := [FShutdown 0; FSpawn always; D0f; D0f; FVote; D0f; FTick 0; FFire 1].
Theorem C73_stuck_refuted : exists ops s ev, guarded fs orderly (finit false) ops /\ run fs (finit false) ops = Ok (s, ev) /\ cm_state (f_cm s) = AShuttingDown /\ f_phase s = PWorking /\
  forall ops' s' ev', run fs s ops' = Ok (s', ev') -> EVoteShutdown true ∉ ev'.
Proof.
  assert (exists s ev, run fs (finit false) stuck = Ok (s, ev) /\ (cm_state (f_cm s) = AShuttingDown /\ f_phase s = PWorking /\ 1 ∉ cm_spawnq (f_cm s) /\
    match cm_map (f_cm s) !! 1 with Some i => bool_decide (ci_actor i = None) && (ci_timer i =? 0) && ci_active i | None => false end = true)) as (s & ev & H & H1 & H2 & H3 & H4).
  { by_outcome. }
  assert (Hg : guarded fs orderly (finit false) stuck) by by_guard.
  exists stuck, s, ev. split; [exact Hg|]. split; [exact H|]. split; [exact H1|]. split; [exact H2|]. intros ops' s' ev' H'.
  assert (Hl : lost (f_cm s) 1).
  { clear H Hg. destruct (cm_map (f_cm s) !! 1) as [i|] eqn:Hi; [|done]. apply andb_true_iff in H4 as [[H4 H5]%andb_true_iff H6]. apply bool_decide_eq_true_1 in H4. apply N.eqb_eq in H5. by exists i. }
  exact (proj2 (C73_lost false PShutdownFailed false stuck s ev 1 Hg H ltac:(rewrite H1; clear; done) Hl ops' s' ev' H')).
Qed.

(** The theorems speak about something: a family which is told to end, before and after
    its first vote. *)
Definition told_to_end : list fop := grow ++ [FShutdown 0; D].
Definition asked_all : list fop := told_to_end ++ [FVote].
Lemma guard_both ops : guarded fs (fun s o => orderly s o /\ punctual s o) (finit false) ops -> guarded fs orderly (finit false) ops /\ guarded fs punctual (finit false) ops.
Proof.
  generalize (finit false). induction ops as [|o ops IH]; intros s Hg; [done|]. cbn in *. destruct Hg as [[H1 H2] Hg]. destruct (fs s o) as [[s1 e1]| |]; [|done..].
  destruct (IH s1 Hg). done.
Qed.
Ltac by_both := apply guard_both; apply (guardedb_sound _ (fun s o => bool_decide (orderly s o /\ punctual s o)) _ (fun s o => bool_decide_eq_true_1 _)); vm_compute; reflexivity.
Example C73_ends_ex : guarded fs orderly (finit false) told_to_end /\ exists s ev, run fs (finit false) told_to_end = Ok (s, ev) /\
  cm_state (f_cm s) = AShuttingDown /\ f_phase s = PWorking /\ (forall a, ~ lost (f_cm s) a) /\ state_of s 1 = Some AInitialized /\ state_of s 3 = Some AInitialized.
Proof.
  assert (Hb : guarded fs orderly (finit false) told_to_end /\ guarded fs punctual (finit false) told_to_end) by by_both. destruct Hb as [Hg Hp]. split; [exact Hg|].
  assert (exists s ev, run fs (finit false) told_to_end = Ok (s, ev) /\ (cm_state (f_cm s) = AShuttingDown /\ f_phase s = PWorking /\
    state_of s 1 = Some AInitialized /\ state_of s 3 = Some AInitialized)) as (s & ev & H & H1 & H2 & H3 & H4).
  { by_outcome. }
  exists s, ev. split; [exact H|]. split; [exact H1|]. split; [exact H2|]. split; [|split; [exact H3|exact H4]]. exact (C73_punctual false PShutdownFailed false told_to_end s ev Hp H).
Qed.
Example C73_driven_ex : guarded fs orderly (finit false) asked_all /\ exists s ev, run fs (finit false) asked_all = Ok (s, ev) /\
  cm_state (f_cm s) = AShuttingDown /\ f_phase s = PWorking /\ all_asked (f_cm s) /\ active_actors (f_cm s) = 3%nat.
Proof.
  split; [by_guard|].
  assert (exists s ev, run fs (finit false) asked_all = Ok (s, ev) /\ (cm_state (f_cm s) = AShuttingDown /\ f_phase s = PWorking /\ active_actors (f_cm s) = 3%nat /\
    map_Forall (fun _ i => (if ci_actor i then negb (bool_decide (ci_shut i = SNone)) else negb (ci_active i) && (ci_timer i =? 0)) = true) (cm_map (f_cm s)))) as (s & ev & H & H1 & H2 & H3 & H4).
  { by_outcome. }
  exists s, ev. split; [exact H|]. clear H. split_and!; try done. intros a i Hi. specialize (H4 a i Hi). cbn in H4. destruct (ci_actor i).
  - apply negb_true_iff, bool_decide_eq_false_1 in H4. done.
  - apply andb_true_iff in H4 as [H4%negb_true_iff H5%N.eqb_eq]. done.
Qed.
(** The exception of C73_told happens. *)
Definition giving_up : list fop := [FShutdown 0; FSpawn (SCfg RNormalOnly 0 0 false); D0f; D0f].
Theorem C73_told_refuted : exists ops s ev s' e, guarded fs orderly (finit false) ops /\ run fs (finit false) ops = Ok (s, ev) /\ cm_state (f_cm s) = AShuttingDown /\
  fs s D0f = Ok (s', e) /\ active_actors (f_cm s) = 2%nat /\ active_actors (f_cm s') = 1%nat /\ EShutdownContinue ∉ e.
Proof.
  assert (exists s ev, run fs (finit false) giving_up = Ok (s, ev) /\ (cm_state (f_cm s) = AShuttingDown /\ active_actors (f_cm s) = 2%nat /\
    match fs s D0f with Ok (s', e) => bool_decide (active_actors (f_cm s') = 1%nat /\ EShutdownContinue ∉ e) | _ => false end = true)) as (s & ev & H & H1 & H2 & H3).
  { by_outcome. }
  destruct (fs s D0f) as [[s' e]| |] eqn:E; [|discriminate H3..]. apply bool_decide_eq_true_1 in H3 as [H3 H4].
  exists giving_up, s, ev, s', e. split; [by_guard|]. split; [exact H|]. split; [exact H1|]. split; [exact E|]. split; [exact H2|]. split; [exact H3|exact H4].
Qed.

Print Assumptions C73_ends.
Print Assumptions C73_lost.
Print Assumptions C73_exact.
Print Assumptions C73_punctual.
Print Assumptions C73_told.
Print Assumptions C73_driven.
Print Assumptions C73_stuck_refuted.
Print Assumptions C73_told_refuted.
