(** C74: a supervisor of a tree which is told to end can end with everything below it,
    unless a spawner is lost there. *)
From stdpp Require Import base list gmap.
From Verif Require Import Base StateModel ChildMgrModel ChildMgrSpec FamilyModel FamilySpec TreeModel TreeSpec TreeProofs TreeFacts TreeProps FamilyEndSpec TreeEndSpec TreeEndProofs TreeEndMain.
Open Scope N_scope.

(** Whatever happened before: if a supervisor shuts down and no spawner is lost at it or
    at a supervisor below it which has not agreed, then messages which are taken and
    actors which finish suffice to end it, all supervisors below and all their actors.
    Neither users nor timers are needed, and the rest of the tree need not end. *)
Theorem C74_ends : forall pol sync ops t ev r nd, guarded (tstep pol sync) tidy tinit ops -> run (tstep pol sync) tinit ops = Ok (t, ev) ->
  t !! r = Some nd -> sup_state nd = AShuttingDown -> (forall l a, ~ lost_at t (l ++ r) a) ->
  exists ops' t' ev' nd', Forall tinternal ops' /\ guarded (tstep pol sync) tidy t ops' /\ run (tstep pol sync) t ops' = Ok (t', ev') /\ all_over t' r /\
    t' !! r = Some nd' /\ EVoteShutdown true ∈ n_ev nd'.
Proof. intros pol sync ops t ev r nd Hg H. exact (tree_can_end pol sync ops t ev r nd (conj Hg H)). Qed.

(** A lost spawner holds back every supervisor above it, for ever. *)
Theorem C74_lost : forall pol sync ops t ev l r a ops' t' ev' nd', guarded (tstep pol sync) tidy tinit ops -> run (tstep pol sync) tinit ops = Ok (t, ev) ->
  lost_at t (l ++ r) a -> guarded (tstep pol sync) tidy t ops' -> run (tstep pol sync) t ops' = Ok (t', ev') -> t' !! r = Some nd' ->
  EVoteShutdown true ∉ n_ev nd' /\ lost_at t' (l ++ r) a.
Proof. intros pol sync ops t ev l r a ops' t' ev' nd' Hg H. exact (tree_lost pol sync ops t ev l r a ops' t' ev' nd' (conj Hg H)). Qed.

(** The two together. *)
Theorem C74_exact : forall pol sync ops t ev r nd, guarded (tstep pol sync) tidy tinit ops -> run (tstep pol sync) tinit ops = Ok (t, ev) ->
  t !! r = Some nd -> sup_state nd = AShuttingDown ->
  (exists ops' t' ev' nd', guarded (tstep pol sync) tidy t ops' /\ run (tstep pol sync) t ops' = Ok (t', ev') /\ t' !! r = Some nd' /\ EVoteShutdown true ∈ n_ev nd') <->
  (forall l a, ~ lost_at t (l ++ r) a).
Proof. intros pol sync ops t ev r nd Hg H. exact (tree_exact pol sync ops t ev r nd (conj Hg H)). Qed.

(** Nothing is lost as long as no restart timer fires while its supervisor shuts down. *)
Theorem C74_punctual : forall pol sync ops t ev, guarded (tstep pol sync) tpunctual tinit ops -> run (tstep pol sync) tinit ops = Ok (t, ev) ->
  forall n a, ~ lost_at t n a.
Proof. exact tree_punctual. Qed.

(** Only a supervisor which shuts down loses spawners: while no supervisor does, nothing
    is lost. *)
Theorem C74_late : forall pol sync ops t ev n nd a, guarded (tstep pol sync) tidy tinit ops -> run (tstep pol sync) tinit ops = Ok (t, ev) ->
  t !! n = Some nd -> lost_at t n a -> sup_state nd = AShuttingDown \/ sup_state nd = AShutDown.
Proof.
  intros pol sync ops t ev n nd a Hg H Hn (nd' & Hn' & _ & Hl). rewrite Hn in Hn'. injection Hn' as <-. apply shut_states. eapply lost_late; [|exact Hl].
  apply (te_node _ _ _ _ (reach_good pol sync ops t ev (conj Hg H))). exact Hn.
Qed.

(** A child manager has agreed if and only if the vote was recorded. *)
Theorem C74_vote : forall pol sync ops t ev n nd, guarded (tstep pol sync) tidy tinit ops -> run (tstep pol sync) tinit ops = Ok (t, ev) ->
  t !! n = Some nd -> f_phase (n_fam nd) <> PWorking <-> EVoteShutdown true ∈ n_ev nd.
Proof.
  intros pol sync ops t ev n nd Hg H Hn. eapply node_vote. apply (te_node _ _ _ _ (reach_good pol sync ops t ev (conj Hg H))). exact Hn.
Qed.

(** Three supervisors, one below the other.  A spawner of the lowest one waits for its
    next attempt when the root is told to end, and its timer fires after the lowest
    supervisor was asked to end and before its child manager was: the whole tree waits
    for ever. *)
Definition F n : top := TOp n (FDeliver false false false false false true false).
Definition always : scfg := SCfg RAlways 0 0 false.
Definition told : list top := up3 ++ [TOp [1; 1] (FSpawn always); F [1; 1]; TOp [] (FShutdown 0); F []; F []; TOp [] FVote; F []; F []; F []; TOp [1] FVote; F [1]; F [1]].
Definition caught : list top := told ++ [TOp [1; 1] (FTick 0); TOp [1; 1] (FFire 1)].
Definition lostb (s : cstate) (a : N) : bool :=
  match cm_map s !! a with Some i => bool_decide (ci_actor i = None) && (ci_timer i =? 0) && ci_active i && bool_decide (a ∉ cm_spawnq s) | None => false end.
Lemma lostb_lost s a : lostb s a = true -> lost s a.
Proof.
  unfold lostb. destruct (cm_map s !! a) as [i|] eqn:Hi; [|discriminate]. intros [[[H1 H2]%andb_true_iff H3]%andb_true_iff H4]%andb_true_iff.
  apply bool_decide_eq_true_1 in H1, H4. apply N.eqb_eq in H2. by exists i.
Qed.
Theorem C74_stuck_refuted : exists ops t ev, guarded ts tidy tinit ops /\ run ts tinit ops = Ok (t, ev) /\ at_node t [] (fun nd => sup_state nd = AShuttingDown) /\
  forall ops' t' ev', guarded ts tidy t ops' -> run ts t ops' = Ok (t', ev') -> forall nd', t' !! [] = Some nd' -> EVoteShutdown true ∉ n_ev nd'.
Proof.
  assert (exists t ev, run ts tinit caught = Ok (t, ev) /\ (at_node t [] (fun nd => sup_state nd = AShuttingDown) /\
    at_node t [1; 1] (fun nd => f_phase (n_fam nd) = PWorking /\ lostb (f_cm (n_fam nd)) 2 = true))) as (t & ev & H & H1 & H2) by by_outcome.
  assert (Hg : guarded ts tidy tinit caught) by by_guard. exists caught, t, ev. split; [exact Hg|]. split; [exact H|]. split; [exact H1|].
  intros ops' t' ev' G R nd' Hn'.
  assert (Hl : lost_at t ([1; 1] ++ []) 2).
  { clear -H2. unfold at_node in H2. destruct (t !! [1; 1]) as [nd|] eqn:E; [|destruct H2]. destruct H2 as [H2 H3]. exists nd. split; [exact E|]. split; [exact H2|]. by apply lostb_lost. }
  exact (proj1 (C74_lost _ _ caught t ev [1; 1] [] 2 ops' t' ev' nd' Hg H Hl G R Hn')).
Qed.

(** The theorems speak about something: the same tree before the timer fires, where all
    three supervisors shut down and the spawner waits. *)
Lemma guard_both ops : forall t, guarded ts (fun t o => tidy t o /\ tpunctual t o) t ops -> guarded ts tidy t ops /\ guarded ts tpunctual t ops.
Proof.
  induction ops as [|o ops IH]; intros t Hg; [done|]. cbn [guarded] in *. destruct Hg as [[H1 H2] Hg]. destruct (ts t o) as [[t1 e1]| |]; [|done..].
  destruct (IH t1 Hg). done.
Qed.
Example C74_ends_ex : guarded ts tidy tinit told /\ exists t ev, run ts tinit told = Ok (t, ev) /\
  at_node t [] (fun nd => sup_state nd = AShuttingDown) /\ at_node t [1] (fun nd => sup_state nd = AShuttingDown) /\
  at_node t [1; 1] (fun nd => sup_state nd = AShuttingDown /\ state_of (n_fam nd) 1 = Some AInitialized) /\ forall l a, ~ lost_at t (l ++ []) a.
Proof.
  assert (Hb : guarded ts tidy tinit told /\ guarded ts tpunctual tinit told).
  { apply guard_both. apply (guardedb_sound _ (fun t o => bool_decide (tidy t o /\ tpunctual t o)) _ (fun t o => bool_decide_eq_true_1 _)). vm_compute. reflexivity. }
  destruct Hb as [Hg Hp]. split; [exact Hg|].
  assert (exists t ev, run ts tinit told = Ok (t, ev) /\ (at_node t [] (fun nd => sup_state nd = AShuttingDown) /\ at_node t [1] (fun nd => sup_state nd = AShuttingDown) /\
    at_node t [1; 1] (fun nd => sup_state nd = AShuttingDown /\ state_of (n_fam nd) 1 = Some AInitialized))) as (t & ev & H & H1 & H2 & H3) by by_outcome.
  exists t, ev. split; [exact H|]. split; [exact H1|]. split; [exact H2|]. split; [exact H3|]. intros l a. exact (C74_punctual _ _ told t ev Hp H (l ++ []) a).
Qed.
(** A supervisor ends alone: the one below the root fails (C56_fatal), the root works on. *)
Example C74_alone_ex : guarded ts tidy tinit fatal /\ exists t ev, run ts tinit fatal = Ok (t, ev) /\
  at_node t [] (fun nd => sup_state nd = AOperational) /\ at_node t [1; 1] (fun nd => sup_state nd = AShuttingDown) /\ forall l a, ~ lost_at t (l ++ [1; 1]) a.
Proof.
  assert (Hb : guarded ts tidy tinit fatal /\ guarded ts tpunctual tinit fatal).
  { apply guard_both. apply (guardedb_sound _ (fun t o => bool_decide (tidy t o /\ tpunctual t o)) _ (fun t o => bool_decide_eq_true_1 _)). vm_compute. reflexivity. }
  destruct Hb as [Hg Hp]. split; [exact Hg|].
  assert (exists t ev, run ts tinit fatal = Ok (t, ev) /\ (at_node t [] (fun nd => sup_state nd = AOperational) /\ at_node t [1; 1] (fun nd => sup_state nd = AShuttingDown))) as (t & ev & H & H1 & H2) by by_outcome.
  exists t, ev. split; [exact H|]. split; [exact H1|]. split; [exact H2|]. intros l a. exact (C74_punctual _ _ fatal t ev Hp H (l ++ [1; 1]) a).
Qed.

Print Assumptions C74_ends.
Print Assumptions C74_lost.
Print Assumptions C74_exact.
Print Assumptions C74_punctual.
Print Assumptions C74_late.
Print Assumptions C74_vote.
Print Assumptions C74_stuck_refuted.
