(** C20-C23: spawners; C30-C33: the child manager of a supervisor. *)
From stdpp Require Import base list gmap.
From Verif Require Import Base ChildMgrModel ChildMgrSpec ChildMgrProofs ChildMgrTrace ChildMgrFacts.
Open Scope N_scope.

Notation runs hp policy sync ops s ev := (run (cstep hp policy sync) (cinit hp) ops = Ok (s, ev)).

(** C20 *)
Theorem C20_instances : forall hp policy sync ops s ev k cfg, runs hp policy sync ops s ev -> ESpawner k cfg ∈ ev ->
  (0 < sc_max cfg -> count (is_instance k) ev <= sc_max cfg) /\ (sc_policy cfg = RNever -> count (is_instance k) ev <= 1).
Proof. exact spawner_bound. Qed.
(** The same bound holds for the calls of the factory, failed ones included. *)
Theorem C20_attempts : forall hp policy sync ops s ev k cfg, runs hp policy sync ops s ev -> ESpawner k cfg ∈ ev ->
  (0 < sc_max cfg -> count (is_attempt k) ev <= sc_max cfg) /\ (sc_policy cfg = RNever -> count (is_attempt k) ev <= 1).
Proof. exact spawner_attempts. Qed.

Definition always2 := SCfg RAlways 10 2 false.
(** Spawned, dies, respawned by timer, dies: the limit is reached. *)
Definition life1 : list cop :=
  [OSpawn always2; OOnSpawn 1 true; OOnCreate 2; OOnInit 2 false; OTrigger 2; OConfirm 2 false false;
   OTick 10; OLoopTime; OFire 1; OOnSpawn 2 true; OOnCreate 3; OTrigger 3; OConfirm 3 false false].
Example C20_reached : exists s ev, runs false PShutdownSelf false life1 s ev /\ ESpawner 0 always2 ∈ ev /\
  count (is_instance 0) ev = 2 /\ cm_map s !! 3 = None.
Proof.
  eexists _, _. split; [vm_compute; reflexivity|]. split_and!; [|vm_compute; reflexivity..].
  apply (bool_decide_unpack _). vm_compute. done.
Qed.

(** C21: an attempt after a termination means the policy allowed it. *)
Theorem C21_only_allowed : forall hp policy sync ops s ev ev1 ev2 k cfg c abn ask t, runs hp policy sync ops s ev ->
  ev = ev1 ++ ERemoved c (Some k) abn ask :: ev2 -> ESpawner k cfg ∈ ev -> EAttempt k t ∈ ev2 -> allowed cfg abn ask = true.
Proof. exact no_restart. Qed.
(** ... and an allowed restart is scheduled: at once or by a timer. *)
Theorem C21_allowed_scheduled : forall hp policy sync ops s ev o s' e k cfg c abn ask, runs hp policy sync ops s ev ->
  ESpawner k cfg ∈ ev -> rank (cm_state s) <= 4 ->
  cstep hp policy sync s o = Ok (s', e) -> ERemoved c (Some k) abn ask ∈ e -> allowed cfg abn ask = true ->
  (0 < sc_max cfg -> count (is_attempt k) ev < sc_max cfg) ->
  exists a i', cm_map s' !! a = Some i' /\ ci_sid i' = Some k /\ ci_active i' = true /\
    (a ∈ cm_spawnq s' \/ cm_spawning s' !! ci_timer i' = Some a /\ cm_timers s' !! ci_timer i' = Some (cm_loop s + sc_period cfg)).
Proof. exact restart_scheduled. Qed.

(** A fail_only spawner: restarted after a failure, not after a normal end. *)
Definition fail0 := SCfg RFailOnly 0 0 false.
Definition life2 : list cop :=
  [OSpawn fail0; OOnSpawn 1 true; OChild 2 (Child AShutDown (Some true) false); OTrigger 2; OConfirm 2 false false;
   OOnSpawn 2 true; OChild 3 (Child AShutDown (Some false) false); OTrigger 3; OConfirm 3 false false].
Example C21_fail_only : exists s ev ev1 ev2, runs false PShutdownSelf false life2 s ev /\
  ev = ev1 ++ ERemoved 2 (Some 0) true false :: ev2 /\ EAttempt 0 0 ∈ ev2 /\ ERemoved 3 (Some 0) false false ∈ ev2 /\ cm_spawnq s = [] /\ cm_timers s = ∅.
Proof.
  eexists _, _, [ESpawner 0 fail0; ESpawnMsg 1; EAttempt 0 0; ECreated 2; EInstance 0 2 0; EShutReq 2], _. split; [vm_compute; reflexivity|]. split_and!.
  - vm_compute. reflexivity.
  - apply (bool_decide_unpack _). vm_compute. done.
  - apply (bool_decide_unpack _). vm_compute. done.
  - reflexivity.
  - apply map_to_list_empty_iff. vm_compute. reflexivity.
Qed.

(** C22, for backends which start timers from the current time. *)
Theorem C22_spaced : forall hp policy sync ops s ev ev1 ev2 k cfg c1 c2 t1 t2, runs hp policy sync ops s ev ->
  guarded (cstep hp policy sync) fresh_clock (cinit hp) ops ->
  ev = ev1 ++ EInstance k c2 t2 :: ev2 -> EInstance k c1 t1 ∈ ev1 -> ESpawner k cfg ∈ ev -> t1 + sc_period cfg <= t2.
Proof. exact spaced_instances. Qed.
Theorem C22_attempts_spaced : forall hp policy sync ops s ev ev1 ev2 k cfg t1 t2, runs hp policy sync ops s ev ->
  guarded (cstep hp policy sync) fresh_clock (cinit hp) ops ->
  ev = ev1 ++ EAttempt k t2 :: ev2 -> EAttempt k t1 ∈ ev1 -> ESpawner k cfg ∈ ev -> t1 + sc_period cfg <= t2.
Proof. exact spaced. Qed.
Definition fresh_clockb (s : cstate) (o : cop) : bool :=
  match o with OOnSpawn _ _ | OConfirm _ _ _ | OUnsubLast _ _ | ODeactivate _ _ => cm_loop s =? cm_now s | _ => true end.
Example C22_two : guarded (cstep false PShutdownSelf false) fresh_clock (cinit false) life1 /\
  exists s ev ev1 ev2, runs false PShutdownSelf false life1 s ev /\ ev = ev1 ++ EInstance 0 3 10 :: ev2 /\ EInstance 0 2 0 ∈ ev1.
Proof.
  split.
  - apply (guardedb_sound _ fresh_clockb); [|vm_compute; reflexivity]. intros s [] H; try done; by apply N.eqb_eq.
  - eexists _, _, [ESpawner 0 always2; ESpawnMsg 1; EAttempt 0 0; ECreated 2; EInstance 0 2 0; EInitReq 2; EInitOk 2; EStart 2; EShutReq 2; ERemoved 2 (Some 0) false false; ESpawnTimer 1; ESpawnMsg 2; EAttempt 0 10; ECreated 3], _.
    split; [vm_compute; reflexivity|]. split; [vm_compute; reflexivity|]. apply (bool_decide_unpack _). vm_compute. done.
Qed.
(** With a stale loop clock (thread backend) a retry comes too early: the factory
    fails at time 10, the timer counts from time 0. *)
Theorem C22_stale_refuted : exists ops s ev ev1 ev2 k cfg t1 t2, runs false PShutdownFailed false ops s ev /\
  ev = ev1 ++ EAttempt k t2 :: ev2 /\ EAttempt k t1 ∈ ev1 /\ ESpawner k cfg ∈ ev /\ t2 < t1 + sc_period cfg.
Proof.
  exists [OSpawn always2; OTick 10; OOnSpawn 1 false; OFire 1; OOnSpawn 1 true]. eexists _, _, [ESpawner 0 always2; ESpawnMsg 1; EAttempt 0 10; ESpawnTimer 1; ESpawnMsg 1], _, 0, always2, 10, 10.
  split; [vm_compute; reflexivity|]. split_and!; [vm_compute; reflexivity|apply (bool_decide_unpack _); vm_compute; done..|done].
Qed.

(** C23: while the supervisor is shutting down its spawners answer only the
    spawn messages which were already under way and those of new spawners; that
    they answer them at all contradicts C23. *)
Theorem C23_attempts_partial : forall hp policy sync ops s ev ops2 s' ev2, runs hp policy sync ops s ev -> 5 <= rank (cm_state s) ->
  run (cstep hp policy sync) s ops2 = Ok (s', ev2) ->
  count is_any_attempt ev2 <= N.of_nat (length (cm_spawnq s)) + count is_spawner ev2.
Proof. exact shutdown_instances. Qed.
Theorem C23_refuted : exists ops s ev ev1 ev2 k c t, runs false PShutdownSelf false ops s ev /\
  ev = ev1 ++ EShutdownStart :: ev2 /\ EInstance k c t ∈ ev2 /\ cm_state s = AShuttingDown.
Proof.
  exists [OSpawn always2; OTrigger 0; OOnSpawn 1 true]. eexists _, _, [ESpawner 0 always2; ESpawnMsg 1], _, 0, 2, 0.
  split; [vm_compute; reflexivity|]. split_and!; [vm_compute; reflexivity|apply (bool_decide_unpack _); vm_compute; done|done].
Qed.

(** C30 *)
Theorem C30_once : forall hp policy sync ops s ev, runs hp policy sync ops s ev -> NoDup (shutreqs ev).
Proof. exact ask_once. Qed.
Example C30_triggers : exists s ev, runs false PShutdownSelf false [OCreate; OTrigger 1; OTrigger 1; OTrigger 0; OTrigger 0; OVoteShutdown] s ev /\ shutreqs ev = [1].
Proof. eexists _, _. split; [vm_compute; reflexivity|vm_compute; reflexivity]. Qed.

(** C31 *)
Theorem C31_no_children : forall hp policy sync ops s ev ev1 ev2 c, runs hp policy sync ops s ev ->
  ev = ev1 ++ EVoteShutdown true :: ev2 -> ECreated c ∈ ev1 -> removed c ev1.
Proof. exact vote_no_children. Qed.
Theorem C31_no_respawn : forall hp policy sync ops s ev ev1 ev2 k t, runs hp policy sync ops s ev ->
  ev = ev1 ++ EVoteShutdown true :: ev2 -> EAttempt k t ∈ ev2 -> exists cfg, ESpawner k cfg ∈ ev2.
Proof. exact vote_no_respawn. Qed.
Theorem C31_vote_asks : forall hp policy sync ops s ev ev1 ev2 b c, runs hp policy sync ops s ev ->
  ev = ev1 ++ EVoteShutdown b :: ev2 -> ECreated c ∈ ev1 -> removed c ev1 \/ EShutReq c ∈ ev1.
Proof. exact vote_asked. Qed.
Theorem C31_vote_timers : forall hp policy sync ops s ev s' e b, runs hp policy sync ops s ev ->
  cstep hp policy sync s OVoteShutdown = Ok (s', e) -> EVoteShutdown b ∈ e -> cm_timers s' = ∅.
Proof. exact vote_timers. Qed.
Theorem C31_start_asks : forall hp policy sync ops s ev ev1 ev2 c, runs hp policy sync ops s ev ->
  ev = ev1 ++ EShutdownStart :: ev2 -> ECreated c ∈ ev1 -> removed c ev1 \/ EShutReq c ∈ ev.
Proof. exact start_asked. Qed.
Theorem C31_start_timers : forall hp policy sync ops s ev o s' e, runs hp policy sync ops s ev ->
  cstep hp policy sync s o = Ok (s', e) -> EShutdownStart ∈ e -> cm_timers s' = ∅.
Proof. exact start_timers. Qed.
Definition down1 : list cop :=
  [OCreate; OSpawn always2; OOnSpawn 2 false; OTrigger 0; OVoteShutdown; OConfirm 1 false false; OVoteShutdown].
Example C31_votes : exists s ev, runs false PShutdownFailed false down1 s ev /\ ESpawnTimer 1 ∈ ev /\
  omap (fun e => match e with EVoteShutdown b => Some b | _ => None end) ev = [false; true].
Proof. eexists _, _. split; [vm_compute; reflexivity|]. split; [apply (bool_decide_unpack _); vm_compute; done|vm_compute; reflexivity]. Qed.

(** The converse "asked children leave, so the supervisor ends" fails: a spawn
    message answered during shutdown makes a child which nobody asks, nothing is
    under way any more, and nothing calls for another vote. *)
Theorem C31_hang_refuted : exists ops s ev ev1 ev2 c, runs false PShutdownSelf false ops s ev /\
  ev = ev1 ++ EVoteShutdown false :: ev2 /\ EShutdownContinue ∉ ev2 /\ quiescent s /\ cm_state s = AShuttingDown /\
  ECreated c ∈ ev2 /\ EShutReq c ∉ ev /\ cm_map s !! c <> None.
Proof.
  exists [OSpawn always2; OTrigger 0; OVoteShutdown; OOnSpawn 1 true; OOnCreate 2; OOnInit 2 false; OOnInit 0 false].
  eexists _, _, [ESpawner 0 always2; ESpawnMsg 1; EShutdownStart; EShutdownContinue], _, 2.
  split; [vm_compute; reflexivity|]. split; [vm_compute; reflexivity|]. split_and!; try reflexivity; try done;
    first [apply map_to_list_empty_iff; vm_compute; reflexivity | apply (bool_decide_unpack _); vm_compute; done].
Qed.

(** C32 *)
Theorem C32_vote : forall hp policy sync ops s ev s' c, runs hp policy sync ops s ev ->
  cstep hp policy sync s OVoteInit = Ok (s', [EVoteInit true]) -> ECreated c ∈ ev ->
  removed c ev \/ EInitOk c ∈ ev \/ exists ch, cm_children s !! c = Some ch /\ 2 < rank (ch_state ch).
Proof. exact vote_init. Qed.
Theorem C32_sync_not_before : forall hp policy sync ops s ev ev1 ev2 c, sync = true -> runs hp policy sync ops s ev ->
  ev = ev1 ++ EStart c :: ev2 -> c <> 0 -> ESupStart ∈ ev1.
Proof. exact sync_start. Qed.
Theorem C32_sync_all : forall hp policy sync ops s ev s' e c, sync = true -> runs hp policy sync ops s ev -> cm_state s = AInitialized ->
  cstep hp policy sync s OHandleStart = Ok (s', e) -> ECreated c ∈ ev -> removed c ev \/ EStart c ∈ e.
Proof. exact sup_start_all. Qed.
Definition up1 : list cop :=
  [OInitRequest; OCreate; OVoteInit; OOnCreate 1; OChild 1 (Child AInitialized None false); OOnInit 1 false; OVoteInit; OState AInitialized; OHandleStart].
Example C32_up : exists s ev ev1 ev2, runs false PShutdownSelf true up1 s ev /\
  ev = ev1 ++ EStart 1 :: ev2 /\ cm_state s = AOperational /\
  omap (fun e => match e with EVoteInit b => Some b | _ => None end) ev = [false; true].
Proof.
  eexists _, _, [ECreated 1; EVoteInit false; EInitReq 1; EInitOk 1; EInitContinue; EVoteInit true; ESupStart], _. split; [vm_compute; reflexivity|].
  split_and!; vm_compute; reflexivity.
Qed.
(** The supervisor goes on when the last child answered, provided that the
    child's new state is visible by then. *)
Theorem C32_continues : forall hp policy sync ops s ev s' e c, runs hp policy sync ops s ev ->
  cstep hp policy sync s (OOnInit c false) = Ok (s', e) -> c ∈ cm_initout s ->
  cm_state s = AInitializing -> cm_initreq s = true ->
  (forall a i, cm_map s !! a = Some i -> ci_actor i = Some a -> a <> 0 ->
     exists ch, cm_children s !! a = Some ch /\ (ci_initialized i = true \/ 2 < rank (ch_state ch))) ->
  EInitContinue ∈ e.
Proof. exact init_continues. Qed.
(** actor_base.cpp:97-101 answers before it changes the state.  A child on
    another thread may be caught in between: its parent takes the answer, still
    counts it as initializing, and never continues its own initialization. *)
Theorem C32_race_refuted : exists ops s ev, runs false PShutdownSelf false ops s ev /\ cm_state s = AInitializing /\ cm_initreq s = true /\ handle_init s = true /\ EInitOk 1 ∈ ev /\ EInitContinue ∉ ev /\ EVoteInit true ∉ ev /\ cm_spawnq s = [] /\ cm_createq s = [] /\ cm_initout s = {[0]} /\ cm_timers s = ∅.
Proof.
  exists [OInitRequest; OCreate; OVoteInit; OOnCreate 1; OOnInit 1 false; OChild 1 (Child AInitialized None false)].
  eexists _, _. split; [vm_compute; reflexivity|]. split_and!; try (vm_compute; reflexivity);
    try (apply map_to_list_empty_iff; vm_compute; reflexivity); apply (bool_decide_unpack _); vm_compute; done.
Qed.
(** A child made after that never starts. *)
Theorem C32_late_refuted : exists ops s ev c, runs false PShutdownSelf true ops s ev /\ cm_state s = AOperational /\
  EInitOk c ∈ ev /\ EStart c ∉ ev /\ cm_spawnq s = [] /\ cm_createq s = [] /\ cm_timers s = ∅.
Proof.
  exists (up1 ++ [OCreate; OOnCreate 2; OOnInit 2 false]). eexists _, _, 2. split; [vm_compute; reflexivity|].
  split_and!; try reflexivity; first [apply map_to_list_empty_iff; vm_compute; reflexivity | apply (bool_decide_unpack _); vm_compute; done].
Qed.

(** C33: the failed answer itself touches only that child; what follows when
    the child is gone contradicts C33. *)
Theorem C33_response_partial : forall hp policy sync ops s ev s' e c, policy = PShutdownFailed -> runs hp policy sync ops s ev ->
  c ∈ cm_initout s -> ECreated c ∈ ev -> ~ removed c ev ->
  cstep hp policy sync s (OOnInit c true) = Ok (s', e) ->
  s' = set_initout s (cm_initout s ∖ {[c]}) /\ (e = [] \/ e = [EChildShutdown c]).
Proof. exact failed_child. Qed.
Theorem C33_refuted : exists ops s ev, runs false PShutdownFailed false ops s ev /\ cm_state s = AInitializing /\
  OTrigger 0 ∉ ops /\ ECreated 1 ∈ ev /\ EChildShutdown 1 ∈ ev /\ ESelfShutdown ∈ ev.
Proof.
  exists [OInitRequest; OCreate; OOnCreate 1; OOnInit 1 true; OTrigger 1; OChild 1 (Child AShutDown (Some true) false); OConfirm 1 false false].
  eexists _, _. split; [vm_compute; reflexivity|]. split; [reflexivity|]. split.
  - intros H. repeat (apply elem_of_cons in H as [H|H]; [done|]). by apply elem_of_nil in H.
  - split_and!; apply (bool_decide_unpack _); vm_compute; done.
Qed.

Print Assumptions C20_instances.
Print Assumptions C20_attempts.
Print Assumptions C21_only_allowed.
Print Assumptions C21_allowed_scheduled.
Print Assumptions C22_spaced.
Print Assumptions C22_attempts_spaced.
Print Assumptions C22_stale_refuted.
Print Assumptions C23_attempts_partial.
Print Assumptions C23_refuted.
Print Assumptions C30_once.
Print Assumptions C31_no_children.
Print Assumptions C31_no_respawn.
Print Assumptions C31_vote_asks.
Print Assumptions C31_vote_timers.
Print Assumptions C31_start_asks.
Print Assumptions C31_start_timers.
Print Assumptions C31_hang_refuted.
Print Assumptions C32_vote.
Print Assumptions C32_sync_not_before.
Print Assumptions C32_sync_all.
Print Assumptions C32_continues.
Print Assumptions C32_race_refuted.
Print Assumptions C32_late_refuted.
Print Assumptions C33_response_partial.
Print Assumptions C33_refuted.
