(** Properties C29 and C34 to C37: resources, links and names of an actor. *)
From stdpp Require Import base list gmap.
From Verif Require Import Base Prog ActorModel ActorSpec ActorMoves ActorReach ActorProofs ActorFacts ActorSteps ActorAsked.
Open Scope N_scope.

(** An actor with the user code [cfg] and the registry [ra] does [ops]; the trace
    is [ev]. *)
Definition ran (cfg : plug -> list uact) (ra : N) (unl : bool) (ops : list aop) (s : astore) (ev : list aev) : Prop :=
  run (astep cfg ra unl) ainit ops = Ok (s, ev).
(** It keeps to the rules of use. *)
Definition used (cfg : plug -> list uact) (ra : N) (unl : bool) (ops : list aop) : Prop :=
  usage_cfg cfg /\ guarded (astep cfg ra unl) usage ainit ops.
Lemma used_reach cfg ra unl ops s ev : used cfg ra unl ops -> ran cfg ra unl ops s ev -> reach True s ev.
Proof. intros [Hc Hg]. by apply arun_reach. Qed.

(** The examples: an actor with nothing; one which uses everything. *)
Definition nothing (_ : plug) : list uact := [].
Definition full (p : plug) : list uact :=
  match p with PLc => [ULink 20 false] | PRg => [URegister 5; URegister 6; UDiscover 9 false true] | PRs => [UAcquire 3] | PSt => [UTrack] | _ => [] end.
Definition up : list aop := [OInitReq; OResp 1 RpOk; OResp 2 RpOk; OResp 3 RpOk; OResp 4 RpOk; OResp 5 (RpAddr 30); OResp 6 RpOk; OUser (URelease 3); OSubscribed].
Definition life : list aop := up ++ [OStart; OUser (UAcquire 4); OShutReq; OUser (URelease 4); OUnsubscribed].
Lemma full_used : usage_cfg full.
Proof. repeat split; repeat constructor; cbn; tauto. Qed.
Lemma usageb_ok s o : bool_decide (usage s o) = true -> usage s o.
Proof. apply bool_decide_eq_true. Qed.
Ltac by_usage := apply (guardedb_sound _ (fun s o => bool_decide (usage s o)) _ usageb_ok); vm_compute; reflexivity.
Ltac used_ex := split; [exact full_used|by_usage].
Ltac ran_ex := eexists _, _; split; [vm_compute; reflexivity|].

(** ** C29 *)
(** The counters are acquires minus releases. *)
Lemma c29_counters : forall cfg ra unl ops s ev, ran cfg ra unl ops s ev -> forall i, held s i + count (EvRelease i) ev = count (EvAcquire i) ev.
Proof. intros * H. apply (reach_res False). by eapply arun_reach_any. Qed.
Theorem C29_counters : forall cfg ra unl ops s ev, ran cfg ra unl ops s ev -> forall i, held s i + count (EvRelease i) ev = count (EvAcquire i) ev.
Proof. exact c29_counters. Qed.
(** The votes of the resources plugin: yes iff nothing is held. *)
Lemma c29_init_vote : forall cfg ra unl ops s ev, ran cfg ra unl ops s ev -> forall ev1 b ev2, ev = ev1 ++ EvInitVote PRs b :: ev2 -> (b = true <-> forall i, ~ owned i ev1).
Proof. intros * H. eapply (ev_init_vote False). by eapply arun_reach_any. Qed.
Theorem C29_init_vote : forall cfg ra unl ops s ev, ran cfg ra unl ops s ev ->
  forall ev1 b ev2, ev = ev1 ++ EvInitVote PRs b :: ev2 -> (b = true <-> forall i, ~ owned i ev1).
Proof. exact c29_init_vote. Qed.
Lemma c29_shutdown_vote : forall cfg ra unl ops s ev, ran cfg ra unl ops s ev -> forall ev1 b ev2, ev = ev1 ++ EvShutVote PRs b :: ev2 -> (b = true <-> forall i, ~ owned i ev1).
Proof. intros * H. eapply (ev_shut_vote False). by eapply arun_reach_any. Qed.
Theorem C29_shutdown_vote : forall cfg ra unl ops s ev, ran cfg ra unl ops s ev ->
  forall ev1 b ev2, ev = ev1 ++ EvShutVote PRs b :: ev2 -> (b = true <-> forall i, ~ owned i ev1).
Proof. exact c29_shutdown_vote. Qed.
(** Neither phase ends while something is held. *)
Lemma c29_init : forall cfg ra unl ops s ev, used cfg ra unl ops -> ran cfg ra unl ops s ev -> forall ev1 ev2, ev = ev1 ++ EvInitOk :: ev2 -> forall i, ~ owned i ev1.
Proof. intros * Hu H ev1 ev2 E. by destruct (ev_init_ok True s ev (used_reach _ _ _ _ _ _ Hu H) ev1 ev2 E) as (_ & _ & []). Qed.
Theorem C29_init : forall cfg ra unl ops s ev, used cfg ra unl ops -> ran cfg ra unl ops s ev ->
  forall ev1 ev2, ev = ev1 ++ EvInitOk :: ev2 -> forall i, ~ owned i ev1.
Proof. exact c29_init. Qed.
Lemma c29_shutdown : forall cfg ra unl ops s ev, ran cfg ra unl ops s ev -> forall ev1 o ev2, ev = ev1 ++ EvState o AShutDown :: ev2 -> forall i, ~ owned i ev1.
Proof. intros * H ev1 o ev2 E. by destruct (ev_finish False s ev (arun_reach_any _ _ _ _ _ _ H) ev1 o ev2 E) as (_ & ? & _). Qed.
Theorem C29_shutdown : forall cfg ra unl ops s ev, ran cfg ra unl ops s ev ->
  forall ev1 o ev2, ev = ev1 ++ EvState o AShutDown :: ev2 -> forall i, ~ owned i ev1.
Proof. exact c29_shutdown. Qed.
(** Releasing the last one resumes the phase. *)
Lemma c29_resumes : forall cfg ra unl ops s ev i s' e, ran cfg ra unl ops s ev -> astep cfg ra unl s (OUser (URelease i)) = Ok (s', e) ->
  (forall j, ~ owned j (ev ++ [EvRelease i])) -> (state_of ev = AInitializing -> init_polled e) /\ (state_of ev = AShuttingDown -> down_polled e).
Proof.
  intros * H Hs Hn. pose proof (arun_reach_any _ _ _ _ _ _ H) as HR. rewrite <- (reach_state _ _ _ HR).
  eapply release_step; [by eapply arun_idle|exact Hs|]. destruct (has_any _) eqn:E in |- *; [|done]. exfalso.
  apply has_any_spec in E as [j Hj]. rewrite held_ins in Hj. apply (Hn j). unfold owned. rewrite !count_app, (count_ne (EvAcquire j)) by done.
  pose proof (reach_res _ _ _ HR j) as Hr. destruct (decide (j = i)) as [->|Hne].
  - rewrite count_one. lia.
  - rewrite count_ne by congruence. lia.
Qed.
Theorem C29_resumes : forall cfg ra unl ops s ev i s' e, ran cfg ra unl ops s ev -> astep cfg ra unl s (OUser (URelease i)) = Ok (s', e) ->
  (forall j, ~ owned j (ev ++ [EvRelease i])) -> (state_of ev = AInitializing -> init_polled e) /\ (state_of ev = AShuttingDown -> down_polled e).
Proof. exact c29_resumes. Qed.
(** Resources taken in the configuration of the starter are too late: the plugin
    has voted already. *)
Definition too_late (p : plug) : list uact := match p with PSt => [UAcquire 5] | _ => [] end.
Theorem C29_init_refuted : exists cfg ops s ev ev1, ran cfg 1 true ops s ev /\ ev = ev1 ++ [EvInitOk; EvState AInitializing AInitialized] /\ owned 5 ev1.
Proof.
  exists too_late, [OInitReq]. eexists _, _, [EvInitReq; EvInitVote PLc true; EvInitVote PRg true; EvInitVote PRs true; EvAcquire 5; EvInitVote PSt true].
  split; [vm_compute; reflexivity|]. split; [reflexivity|]. vm_compute. reflexivity.
Qed.
Example C29_life : used full 1 true life /\ exists s ev, ran full 1 true life s ev /\
  ev !! 25%nat = Some (EvAcquire 3) /\ ev !! 26%nat = Some (EvInitVote PRs false) /\ ev !! 27%nat = Some (EvRelease 3) /\
  ev !! 28%nat = Some (EvInitVote PRs true) /\ EvInitOk ∈ ev /\ EvShutVote PRs false ∈ ev /\ last ev = Some (EvState AShuttingDown AShutDown).
Proof.
  split; [used_ex|]. ran_ex. split; [reflexivity|]. split; [reflexivity|]. split; [reflexivity|]. split; [reflexivity|].
  split; [apply (bool_decide_unpack _); vm_compute; exact I|]. split; [apply (bool_decide_unpack _); vm_compute; exact I|]. reflexivity.
Qed.
Example C29_released : exists s ev s' e, ran full 1 true (take 7 up) s ev /\ state_of ev = AInitializing /\
  astep full 1 true s (OUser (URelease 3)) = Ok (s', e) /\ e = [EvRelease 3; EvInitVote PRs true; EvInitVote PSt false].
Proof. eexists _, _, _, _. split; [vm_compute; reflexivity|]. split; [reflexivity|]. split; vm_compute; reflexivity. Qed.

(** ** C34 *)
(** The server is not shut down before all clients are unlinked. *)
Lemma c34_waits : forall cfg ra unl ops s ev, ran cfg ra unl ops s ev -> forall ev1 o ev2, ev = ev1 ++ EvState o AShutDown :: ev2 -> forall c, ~ linked c ev1.
Proof. intros * H ev1 o ev2 E. by destruct (ev_finish False s ev (arun_reach_any _ _ _ _ _ _ H) ev1 o ev2 E) as (_ & _ & ? & _). Qed.
Theorem C34_waits : forall cfg ra unl ops s ev, ran cfg ra unl ops s ev ->
  forall ev1 o ev2, ev = ev1 ++ EvState o AShutDown :: ev2 -> forall c, ~ linked c ev1.
Proof. exact c34_waits. Qed.
(** When the plugins of the links vote, all linked clients have been asked; the
    link server agrees only when all are gone. *)
Lemma c34_asked : forall cfg ra unl ops s ev, ran cfg ra unl ops s ev -> forall ev1 p b ev2, ev = ev1 ++ EvShutVote p b :: ev2 -> p = PLs \/ p = PLc /\ b = false -> forall c, linked c ev1 -> asked c ev1.
Proof. intros * H. eapply (ev_cl_vote False). by eapply arun_reach_any. Qed.
Theorem C34_asked : forall cfg ra unl ops s ev, ran cfg ra unl ops s ev ->
  forall ev1 p b ev2, ev = ev1 ++ EvShutVote p b :: ev2 -> p = PLs \/ p = PLc /\ b = false -> forall c, linked c ev1 -> asked c ev1.
Proof. exact c34_asked. Qed.
Lemma c34_vote : forall cfg ra unl ops s ev, ran cfg ra unl ops s ev -> forall ev1 b ev2, ev = ev1 ++ EvShutVote PLs b :: ev2 -> b = true -> forall c, ~ linked c ev1.
Proof. intros * H. eapply (ev_ls_vote False). by eapply arun_reach_any. Qed.
Theorem C34_vote : forall cfg ra unl ops s ev, ran cfg ra unl ops s ev ->
  forall ev1 b ev2, ev = ev1 ++ EvShutVote PLs b :: ev2 -> b = true -> forall c, ~ linked c ev1.
Proof. exact c34_vote. Qed.
(** Only linked clients are asked, and none twice. *)
Lemma c34_once : forall cfg ra unl ops s ev, ran cfg ra unl ops s ev -> forall ev1 c id ev2, ev = ev1 ++ EvUnlinkReq c id :: ev2 -> linked c ev1 /\ ~ asked c ev1.
Proof. intros * H. eapply (ev_ask False). by eapply arun_reach_any. Qed.
Theorem C34_once : forall cfg ra unl ops s ev, ran cfg ra unl ops s ev ->
  forall ev1 c id ev2, ev = ev1 ++ EvUnlinkReq c id :: ev2 -> linked c ev1 /\ ~ asked c ev1.
Proof. exact c34_once. Qed.
(** A client which announces or confirms unlinking lets the shutdown continue. *)
Lemma c34_resumes : forall cfg ra unl ops s ev c o s' e, ran cfg ra unl ops s ev -> state_of ev = AShuttingDown -> linked c ev ->
  o = OUnlinkNotify c \/ (exists id r, o = OResp id r /\ r <> RpErr /\ x_pend s !! id = Some (QUnlink c)) ->
  astep cfg ra unl s o = Ok (s', e) -> down_polled e.
Proof.
  intros * H Hst Hl Ho Hs. pose proof (arun_reach_any _ _ _ _ _ _ H) as HR. rewrite <- (reach_state _ _ _ HR) in Hst.
  apply (reach_cl _ _ _ HR) in Hl as (x & Hx & _). destruct Ho as [->|(id & r & -> & Hr & Hp)].
  - eapply unlinked_step; [|done|exact Hs]. by eexists.
  - by eapply unlink_resp_step.
Qed.
Theorem C34_resumes : forall cfg ra unl ops s ev c o s' e, ran cfg ra unl ops s ev -> state_of ev = AShuttingDown -> linked c ev ->
  o = OUnlinkNotify c \/ (exists id r, o = OResp id r /\ r <> RpErr /\ x_pend s !! id = Some (QUnlink c)) ->
  astep cfg ra unl s o = Ok (s', e) -> down_polled e.
Proof. exact c34_resumes. Qed.
Definition serve : list aop := [OInitReq; OLinkReq 7 1 false; OLinkReq 8 2 true; OLinkReq 8 3 false; OStart; OShutReq; OLinkReq 9 4 false; OResp 1 RpOk; OUnlinkNotify 8; OUnsubscribed].
Example C34_life : exists s ev, ran nothing 1 true serve s ev /\ drop 14 ev =
  [EvState AOperational AShuttingDown; EvShutVote PRs true; EvShutVote PRg true; EvShutVote PLc true; EvUnlinkReq 7 1; EvUnlinkReq 8 2; EvShutVote PLs false;
   EvLinkReq 9 4 false; EvLinkAns 9 4 LNotLinkable; EvUnlinkOk 7; EvShutVote PLs false; EvGotNotify 8; EvShutVote PLs true;
   EvShutVote PLife false; EvShutVote PLife true; EvShutOk; EvState AShuttingDown AShutDown].
Proof. ran_ex. vm_compute. reflexivity. Qed.
(** A client which waits for the start of the server is neither asked nor
    answered when the server shuts down instead; the server waits for it with no
    request under way. *)
Lemma since_singleton {E} (up down : E -> Prop) t1 x t2 : up x -> Forall (fun y => ~ down y) t2 -> since up down (t1 ++ x :: t2).
Proof. intros H1 H2. exists t1, x, t2. done. Qed.
Theorem C34_pending_refuted : exists ops s ev, ran nothing 1 true ops s ev /\ state_of ev = AShuttingDown /\ waiting 8 2 ev /\
  last ev = Some (EvShutVote PLs false) /\ x_pend s = ∅ /\ forall c id, EvUnlinkReq c id ∉ ev.
Proof.
  exists [OInitReq; OLinkReq 8 2 true; OShutReq]. ran_ex. split; [reflexivity|]. split.
  { apply (since_singleton _ _ [EvInitReq; EvInitVote PLc true; EvInitVote PRg true; EvInitVote PRs true; EvInitVote PSt true; EvInitOk; EvState AInitializing AInitialized]); [done|].
    repeat constructor; intros [[? ?]|[?|?]]; done. }
  split; [reflexivity|]. split; [apply map_to_list_empty_iff; vm_compute; reflexivity|]. intros c id Hin. elems Hin; done.
Qed.

(** ** C35 *)
(** The answer given at once to a link request. *)
Lemma c35_answers : forall cfg ra unl ops s ev c r o s' e, ran cfg ra unl ops s ev -> distinct_reqs ev -> state_of ev <> AShutDown ->
  astep cfg ra unl s (OLinkReq c r o) = Ok (s', e) ->
  (state_of ev = AShuttingDown -> e = [EvLinkReq c r o; EvLinkAns c r LNotLinkable]) /\
  (state_of ev <> AShuttingDown -> linked c ev \/ (exists q, waiting c q ev) -> e = [EvLinkReq c r o; EvLinkAns c r LAlready]) /\
  (state_of ev <> AShuttingDown -> ~ linked c ev -> (forall q, ~ waiting c q ev) -> state_of ev = AOperational \/ o = false -> e = [EvLinkReq c r o; EvLinkAns c r LOk]) /\
  (state_of ev <> AShuttingDown -> ~ linked c ev -> (forall q, ~ waiting c q ev) -> state_of ev <> AOperational -> o = true -> e = [EvLinkReq c r true]).
Proof.
  intros * H Hd Hst Hs. pose proof (arun_reach_any _ _ _ _ _ _ H) as HR. rewrite <- (reach_state _ _ _ HR) in *.
  apply link_req_step in Hs; [|done]. destruct (reach_cl _ _ _ HR c) as (L1 & _ & _ & L4). destruct (reach_wait _ _ _ HR) as [_ W].
  assert (Hk : is_Some (x_cl s !! c) <-> linked c ev \/ exists q, waiting c q ev).
  { split.
    - intros [[q| |id] Hx]; [right; exists q; by apply W|left; apply L1; eauto|left; apply L1; eauto].
    - intros [(x & Hx & _)%L1|(q & Hq%L4)]; by eexists. }
  subst e. split_and!.
  - intros E. by rewrite bool_decide_true by done.
  - intros E Hc. rewrite bool_decide_false by done. by rewrite bool_decide_true by (by apply Hk).
  - intros E Hn1 Hn2 Ho. rewrite bool_decide_false by done. rewrite bool_decide_false by (intros [?|[? ?]]%Hk; naive_solver).
    destruct Ho as [Ho| ->]; [rewrite (bool_decide_true (x_st s = AOperational)) by done; by rewrite andb_false_r|done].
  - intros E Hn1 Hn2 Ho ->. rewrite bool_decide_false by done. rewrite bool_decide_false by (intros [?|[? ?]]%Hk; naive_solver).
    by rewrite (bool_decide_false (x_st s = AOperational)) by done.
Qed.
Theorem C35_answers : forall cfg ra unl ops s ev c r o s' e, ran cfg ra unl ops s ev -> distinct_reqs ev -> state_of ev <> AShutDown ->
  astep cfg ra unl s (OLinkReq c r o) = Ok (s', e) ->
  (state_of ev = AShuttingDown -> e = [EvLinkReq c r o; EvLinkAns c r LNotLinkable]) /\
  (state_of ev <> AShuttingDown -> linked c ev \/ (exists q, waiting c q ev) -> e = [EvLinkReq c r o; EvLinkAns c r LAlready]) /\
  (state_of ev <> AShuttingDown -> ~ linked c ev -> (forall q, ~ waiting c q ev) -> state_of ev = AOperational \/ o = false -> e = [EvLinkReq c r o; EvLinkAns c r LOk]) /\
  (state_of ev <> AShuttingDown -> ~ linked c ev -> (forall q, ~ waiting c q ev) -> state_of ev <> AOperational -> o = true -> e = [EvLinkReq c r true]).
Proof. exact c35_answers. Qed.
(** It never fails. *)
Lemma c35_total : forall cfg ra unl s c r o, exists s' e, astep cfg ra unl s (OLinkReq c r o) = Ok (s', e).
Proof.
  intros. unfold astep, to_step, aprog, astep_live, on_link_request. cbn -[rank].
  destruct (bool_decide _); [by eexists _, _|]. cbn -[rank]. destruct (rank AOperational <? rank (x_st s)); [by eexists _, _|].
  destruct (bool_decide _); [by eexists _, _|]. destruct (o && _); by eexists _, _.
Qed.
Theorem C35_total : forall cfg ra unl s c r o, exists s' e, astep cfg ra unl s (OLinkReq c r o) = Ok (s', e).
Proof. exact c35_total. Qed.
(** No request is answered twice. *)
Lemma c35_once : forall cfg ra unl ops s ev, ran cfg ra unl ops s ev -> distinct_reqs ev -> forall c r, (length (answers c r ev) <= 1)%nat.
Proof. intros * H Hd c r. by apply (reach_ans False s ev (arun_reach_any _ _ _ _ _ _ H)). Qed.
Theorem C35_once : forall cfg ra unl ops s ev, ran cfg ra unl ops s ev -> distinct_reqs ev -> forall c r, (length (answers c r ev) <= 1)%nat.
Proof. exact c35_once. Qed.
(** Those who wait are answered positively when the server starts. *)
Lemma c35_start : forall cfg ra unl ops s ev s' e, ran cfg ra unl ops s ev -> state_of ev = AInitialized -> astep cfg ra unl s OStart = Ok (s', e) ->
  forall c r, waiting c r ev -> EvLinkAns c r LOk ∈ e.
Proof.
  intros * H Hst Hs c r Hw. pose proof (arun_reach_any _ _ _ _ _ _ H) as HR. rewrite <- (reach_state _ _ _ HR) in *.
  apply (reach_cl _ _ _ HR) in Hw. eapply start_step; [|done|exact Hs|done]. destruct (reach_wait _ _ _ HR) as [W _]. by eapply W.
Qed.
Theorem C35_start : forall cfg ra unl ops s ev s' e, ran cfg ra unl ops s ev -> state_of ev = AInitialized -> astep cfg ra unl s OStart = Ok (s', e) ->
  forall c r, waiting c r ev -> EvLinkAns c r LOk ∈ e.
Proof. exact c35_start. Qed.
Example C35_serve : exists s ev, ran nothing 1 true serve s ev /\ distinct_reqs ev /\ take 7 (drop 7 ev) =
  [EvLinkReq 7 1 false; EvLinkAns 7 1 LOk; EvLinkReq 8 2 true; EvLinkReq 8 3 false; EvLinkAns 8 3 LAlready; EvState AInitialized AOperational; EvLinkAns 8 2 LOk].
Proof. ran_ex. split; [apply (bool_decide_unpack _); vm_compute; exact I|reflexivity]. Qed.

(** ** C36 *)
(** When the initialization completes, it was asked for, and nothing which the
    actor has asked for is unanswered. *)
Lemma c36_init : forall cfg ra unl ops s ev, used cfg ra unl ops -> ran cfg ra unl ops s ev -> forall ev1 ev2, ev = ev1 ++ EvInitOk :: ev2 ->
  init_wanted ev1 /\ (forall a, ~ link_open a ev1) /\ (forall n, ~ reg_open n ev1) /\ (forall n, ~ disc_open n ev1).
Proof. intros * Hu H ev1 ev2 E. destruct (ev_init_ok True s ev (used_reach _ _ _ _ _ _ Hu H) ev1 ev2 E) as (_ & ? & HD). split; [done|]. by destruct HD as (_ & ?). Qed.
Theorem C36_init : forall cfg ra unl ops s ev, used cfg ra unl ops -> ran cfg ra unl ops s ev -> forall ev1 ev2, ev = ev1 ++ EvInitOk :: ev2 ->
  init_wanted ev1 /\ (forall a, ~ link_open a ev1) /\ (forall n, ~ reg_open n ev1) /\ (forall n, ~ disc_open n ev1).
Proof. exact c36_init. Qed.
(** A refused registration is answered by a failure of the initialization ... *)
Lemma c36_reg_failed : forall cfg ra unl ops s ev, ran cfg ra unl ops s ev -> forall ev1 n ev2, ev = ev1 ++ EvRegResp n false :: ev2 ->
  init_wanted ev1 /\ exists l, ev2 = EvInitErr PRg :: l.
Proof. intros * H. eapply (ev_reg_err False). by eapply arun_reach_any. Qed.
Theorem C36_reg_failed : forall cfg ra unl ops s ev, ran cfg ra unl ops s ev -> forall ev1 n ev2, ev = ev1 ++ EvRegResp n false :: ev2 ->
  init_wanted ev1 /\ exists l, ev2 = EvInitErr PRg :: l.
Proof. exact c36_reg_failed. Qed.
(** ... and so is a failed discovery while the actor initializes ... *)
Lemma c36_disc_failed : forall cfg ra unl ops s ev, ran cfg ra unl ops s ev -> forall ev1 n ev2, ev = ev1 ++ EvDiscResp n None :: ev2 ->
  state_of ev1 = AInitializing -> init_wanted ev1 /\ exists l, ev2 = EvInitErr PRg :: l.
Proof. intros * H. eapply (ev_disc_err False). by eapply arun_reach_any. Qed.
Theorem C36_disc_failed : forall cfg ra unl ops s ev, ran cfg ra unl ops s ev -> forall ev1 n ev2, ev = ev1 ++ EvDiscResp n None :: ev2 ->
  state_of ev1 = AInitializing -> init_wanted ev1 /\ exists l, ev2 = EvInitErr PRg :: l.
Proof. exact c36_disc_failed. Qed.
(** ... and a refused link, for good. *)
Lemma c36_link_failed : forall cfg ra unl ops s ev o s' e a, ran cfg ra unl ops s ev -> state_of ev = AInitializing -> init_wanted ev ->
  o = OLate \/ (exists id, o = OResp id RpErr) -> astep cfg ra unl s o = Ok (s', e) -> head e = Some (EvLinkResp a false) ->
  EvInitErr PLc ∈ e /\ ~ init_wanted (ev ++ e).
Proof.
  intros * H Hst Hw Ho Hs Hh. pose proof (arun_reach_any _ _ _ _ _ _ H) as HR. rewrite <- (reach_state _ _ _ HR) in *.
  destruct (link_err_step cfg ra unl o s s' e a Ho Hst (ireq_wanted _ _ _ HR Hw) Hs Hh) as [H1 H2]. split; [done|].
  intros Hw2. assert (Hr : ran cfg ra unl (ops ++ [o]) s' (ev ++ e)).
  { unfold ran in *. rewrite run_app, H. cbn. rewrite Hs. cbn. by rewrite app_nil_r. }
  rewrite (ireq_wanted _ _ _ (arun_reach_any _ _ _ _ _ _ Hr) Hw2) in H2. done.
Qed.
Theorem C36_link_failed : forall cfg ra unl ops s ev o s' e a, ran cfg ra unl ops s ev -> state_of ev = AInitializing -> init_wanted ev ->
  o = OLate \/ (exists id, o = OResp id RpErr) -> astep cfg ra unl s o = Ok (s', e) -> head e = Some (EvLinkResp a false) ->
  EvInitErr PLc ∈ e /\ ~ init_wanted (ev ++ e).
Proof. exact c36_link_failed. Qed.
(** What is sent is what user code asked for: a link with its flag, a registration, a
    discovery of the right kind; the flag of a link made for a discovered name is
    the one given with the name. *)
Lemma c36_asked : forall cfg ra unl ops s ev, ran cfg ra unl ops s ev ->
  (forall a o id, EvLink a o id ∈ ev -> link_origin (asks cfg ops) ra ev a o) /\
  (forall n id, EvReg n id ∈ ev -> asks cfg ops (URegister n)) /\
  (forall n id, EvDisc n id ∈ ev -> exists o, asks cfg ops (UDiscover n false o)) /\
  (forall n id, EvPromise n id ∈ ev -> exists o, asks cfg ops (UDiscover n true o)) /\
  (forall n, EvCancel n ∈ ev -> exists o, asks cfg ops (UDiscover n true o)).
Proof. intros * H. pose proof (arun_asked _ _ _ _ _ _ H) as J. repeat split; intros *; exact (J _). Qed.
Theorem C36_asked : forall cfg ra unl ops s ev, ran cfg ra unl ops s ev ->
  (forall a o id, EvLink a o id ∈ ev -> link_origin (asks cfg ops) ra ev a o) /\
  (forall n id, EvReg n id ∈ ev -> asks cfg ops (URegister n)) /\
  (forall n id, EvDisc n id ∈ ev -> exists o, asks cfg ops (UDiscover n false o)) /\
  (forall n id, EvPromise n id ∈ ev -> exists o, asks cfg ops (UDiscover n true o)) /\
  (forall n, EvCancel n ∈ ev -> exists o, asks cfg ops (UDiscover n true o)).
Proof. exact c36_asked. Qed.
Example C36_life : used full 1 true up /\ exists s ev, ran full 1 true up s ev /\ take 24 ev =
  [EvInitReq; EvLink 20 false 1; EvInitVote PLc false; EvLinkResp 20 true; EvInitVote PLc true; EvLink 1 false 2; EvRegister 5; EvRegister 6; EvDiscover 9;
   EvInitVote PRg false; EvReg 5 3; EvReg 6 4; EvDisc 9 5; EvLinkResp 1 true; EvInitVote PLc true; EvInitVote PRg false; EvRegResp 5 true; EvRegResp 6 true;
   EvInitVote PRg false; EvDiscResp 9 (Some 30); EvLink 30 true 6; EvInitVote PLc false; EvLinkResp 30 true; EvInitVote PLc true] /\
  drop 31 ev = [EvInitOk; EvState AInitializing AInitialized].
Proof. split; [used_ex|]. ran_ex. split; reflexivity. Qed.
Definition links (p : plug) : list uact := match p with PLc => [ULink 20 false] | _ => [] end.
Example C36_link_refused : exists s ev, ran links 1 true [OInitReq; OResp 1 RpErr] s ev /\ ev = [EvInitReq; EvLink 20 false 1; EvInitVote PLc false; EvLinkResp 20 false; EvInitErr PLc].
Proof. ran_ex. reflexivity. Qed.
Example C36_link_timeout : exists s ev, ran links 1 true [OInitReq; OTimeout 1; OLate] s ev /\ ev = [EvInitReq; EvLink 20 false 1; EvInitVote PLc false; EvLinkResp 20 false; EvInitErr PLc].
Proof. ran_ex. reflexivity. Qed.
(** A failed registration does not prevent a later completion: the init request
    is answered twice. *)
Definition regs (p : plug) : list uact := match p with PRg => [URegister 5; URegister 6] | _ => [] end.
Theorem C36_failed_refuted : exists cfg ops s ev, used cfg 1 true ops /\ ran cfg 1 true ops s ev /\ drop 11 ev =
  [EvRegResp 5 false; EvInitErr PRg; EvRegResp 6 true; EvInitVote PRg true; EvInitVote PRs true; EvInitVote PSt true; EvInitOk; EvState AInitializing AInitialized].
Proof.
  exists regs, [OInitReq; OResp 1 RpOk; OResp 2 RpErr; OResp 3 RpOk]. eexists _, _. split.
  { split; [repeat split; repeat constructor; cbn; tauto|by_usage]. }
  split; vm_compute; reflexivity.
Qed.
(** A name registered after the vote of the registry plugin is not waited for. *)
Definition late (p : plug) : list uact := match p with PRs => [URegister 5] | _ => [] end.
Theorem C36_late_refuted : exists cfg ops s ev ev1 ev2, ran cfg 1 true ops s ev /\ ev = ev1 ++ EvInitOk :: ev2 /\ reg_open 5 ev1.
Proof.
  exists late, [OInitReq; OResp 1 RpOk]. eexists _, _, [EvInitReq; EvInitVote PLc true; EvInitVote PRg true; EvLink 1 false 1; EvRegister 5; EvInitVote PRs true; EvInitVote PSt true], _.
  split; [vm_compute; reflexivity|]. split; [reflexivity|].
  apply (since_singleton _ _ [EvInitReq; EvInitVote PLc true; EvInitVote PRg true; EvLink 1 false 1]); [done|].
  repeat constructor; intros [? ?]; done.
Qed.

(** ** C37 *)
(** The registry plugin votes for the shutdown (either way) only after all names
    known to be registered are revoked; so does the actor. *)
Lemma c37_vote : forall cfg ra unl ops s ev, ran cfg ra unl ops s ev -> forall ev1 b ev2, ev = ev1 ++ EvShutVote PRg b :: ev2 -> forall n, ~ registered n ev1.
Proof. intros * H. eapply (ev_rg_vote False). by eapply arun_reach_any. Qed.
Theorem C37_vote : forall cfg ra unl ops s ev, ran cfg ra unl ops s ev -> forall ev1 b ev2, ev = ev1 ++ EvShutVote PRg b :: ev2 -> forall n, ~ registered n ev1.
Proof. exact c37_vote. Qed.
Lemma c37_finish : forall cfg ra unl ops s ev, used cfg ra unl ops -> ran cfg ra unl ops s ev -> forall ev1 o ev2, ev = ev1 ++ EvState o AShutDown :: ev2 -> forall n, ~ registered n ev1.
Proof. intros * Hu H ev1 o ev2 E. by destruct (ev_finish True s ev (used_reach _ _ _ _ _ _ Hu H) ev1 o ev2 E) as (_ & _ & _ & HD); apply HD. Qed.
Theorem C37_known_partial : forall cfg ra unl ops s ev, used cfg ra unl ops -> ran cfg ra unl ops s ev ->
  forall ev1 o ev2, ev = ev1 ++ EvState o AShutDown :: ev2 -> forall n, ~ registered n ev1.
Proof. exact c37_finish. Qed.
(** Names are only revoked by a shutdown, once, and when registered. *)
Lemma c37_only : forall cfg ra unl ops s ev, ran cfg ra unl ops s ev -> forall ev1 n ev2, ev = ev1 ++ EvDereg n :: ev2 -> state_of ev1 = AShuttingDown /\ registered n ev1.
Proof. intros * H. eapply (ev_dereg False). by eapply arun_reach_any. Qed.
Theorem C37_only : forall cfg ra unl ops s ev, ran cfg ra unl ops s ev -> forall ev1 n ev2, ev = ev1 ++ EvDereg n :: ev2 -> state_of ev1 = AShuttingDown /\ registered n ev1.
Proof. exact c37_only. Qed.
Example C37_life : used full 1 true life /\ exists s ev, ran full 1 true life s ev /\ EvRegResp 5 true ∈ ev /\ take 4 (drop 38 ev) = [EvShutVote PRs true; EvDereg 5; EvDereg 6; EvShutVote PRg true].
Proof. split; [used_ex|]. ran_ex. split; [apply (bool_decide_unpack _); vm_compute; exact I|reflexivity]. Qed.
(** A name whose registration was sent but not confirmed when the actor shuts
    down is never revoked. *)
Theorem C37_refuted : exists cfg ops s ev, used cfg 1 true ops /\ ran cfg 1 true ops s ev /\ EvReg 6 3 ∈ ev /\ last ev = Some (EvState AShuttingDown AShutDown) /\ EvDereg 6 ∉ ev.
Proof.
  exists regs, [OInitReq; OResp 1 RpOk; OResp 2 RpOk; OShutReq; OUnsubscribed]. eexists _, _. split.
  { split; [repeat split; repeat constructor; cbn; tauto|by_usage]. }
  split; [vm_compute; reflexivity|]. split; [apply (bool_decide_unpack _); vm_compute; exact I|]. split; [reflexivity|].
  apply (bool_decide_unpack _); vm_compute; exact I.
Qed.

Print Assumptions C29_counters.
Print Assumptions C29_init_vote.
Print Assumptions C29_shutdown_vote.
Print Assumptions C29_init.
Print Assumptions C29_shutdown.
Print Assumptions C29_resumes.
Print Assumptions C29_init_refuted.
Print Assumptions C34_waits.
Print Assumptions C34_asked.
Print Assumptions C34_vote.
Print Assumptions C34_once.
Print Assumptions C34_resumes.
Print Assumptions C34_pending_refuted.
Print Assumptions C35_answers.
Print Assumptions C35_total.
Print Assumptions C35_once.
Print Assumptions C35_start.
Print Assumptions C36_init.
Print Assumptions C36_reg_failed.
Print Assumptions C36_disc_failed.
Print Assumptions C36_link_failed.
Print Assumptions C36_asked.
Print Assumptions C36_failed_refuted.
Print Assumptions C36_late_refuted.
Print Assumptions C37_vote.
Print Assumptions C37_known_partial.
Print Assumptions C37_only.
Print Assumptions C37_refuted.
