(** C61: a supervisor whose children are actors which link to each other. *)
From stdpp Require Import base list gmap.
From Verif Require Import Base Prog StateModel ChildMgrModel ChildMgrSpec FamilyModel FamilySpec ActorModel ActorSpec ActorSafeSpec NetModel NetSpec SystemModel SystemSpec.
From Verif Require FamilyProps NetProps SystemFam SystemInv SystemProofs.
Open Scope N_scope.

Section reached.
Context (hp : bool) (policy : spolicy) (sync : bool) (cfg : N -> plug -> list uact) (ra : N) (unl : N -> bool).
(** The system [y] is reached under the rules; [ev] is what has happened. *)
Definition sreached (y : sys) (ev : list yev) : Prop :=
  exists ops, guarded (ystep hp policy sync cfg ra unl) (yrule hp policy sync cfg ra unl) (yinit hp) ops /\
    run (ystep hp policy sync cfg ra unl) (yinit hp) ops = Ok (y, ev).
End reached.
Lemma sreached_inv hp policy sync cfg ra unl y ev : (forall n, prudent_cfg ra (cfg n)) -> sreached hp policy sync cfg ra unl y ev -> SystemInv.yinv hp policy sync cfg ra unl y ev.
Proof. intros HC (ops & Hg & Hr). by eapply SystemProofs.sys_reach. Qed.

(** ** No assertion fails anywhere: neither in the supervisor nor in its actors. *)
Theorem C61_safe : forall hp policy sync cfg ra unl ops, (forall n, prudent_cfg ra (cfg n)) ->
  guarded (ystep hp policy sync cfg ra unl) (yrule hp policy sync cfg ra unl) (yinit hp) ops ->
  exists y ev, run (ystep hp policy sync cfg ra unl) (yinit hp) ops = Ok (y, ev).
Proof. intros * HC Hg. destruct (SystemProofs.sys_safe hp policy sync cfg ra unl HC ops Hg) as (y & ev & H & _). eauto. Qed.

(** ** A system is a family of C52-C54 and a net of C57: what was proved of these holds. *)
Theorem C61_parts : forall hp policy sync cfg ra unl y ev, (forall n, prudent_cfg ra (cfg n)) -> sreached hp policy sync cfg ra unl y ev ->
  (exists fops, guarded (fstep hp policy sync) orderly (finit hp) fops /\ run (fstep hp policy sync) (finit hp) fops = Ok (y_f y, sup_trace ev)) /\
  (exists nops, guarded (nstep cfg ra unl) (nrule cfg ra unl) ninit nops /\ run (nstep cfg ra unl) ninit nops = Ok (y_w y, act_trace ev)).
Proof. intros * HC HR. destruct (sreached_inv _ _ _ _ _ _ _ _ HC HR) as [H1 H2 _ _]. done. Qed.

(** ** What the supervisor takes for the state of a child is the state of the actor. *)
Theorem C61_agree : forall hp policy sync cfg ra unl y ev c, (forall n, prudent_cfg ra (cfg n)) -> sreached hp policy sync cfg ra unl y ev ->
  (ECreated c ∈ sup_trace ev <-> is_Some (w_act (y_w y) !! c)) /\
  (ECreated c ∈ sup_trace ev -> FamilySpec.state_of (y_f y) c = Some (status (y_w y) c)).
Proof.
  intros * HC HR. pose proof (sreached_inv _ _ _ _ _ _ _ _ HC HR) as HI. split; [apply HI|]. intros Hc.
  by apply (SystemProofs.sys_agree hp policy sync cfg ra unl HC y ev HI).
Qed.
(** When the queues are empty: exactly those actors end which the supervisor has asked to, and
    exactly those are off its list which have ended. *)
Theorem C61_asked : forall hp policy sync cfg ra unl y ev c, (forall n, prudent_cfg ra (cfg n)) -> sreached hp policy sync cfg ra unl y ev ->
  settled (y_f y) -> ECreated c ∈ sup_trace ev -> EShutReq c ∈ sup_trace ev <-> status (y_w y) c = AShuttingDown \/ status (y_w y) c = AShutDown.
Proof. intros * HC HR. by apply (SystemProofs.sys_asked hp policy sync cfg ra unl HC), sreached_inv. Qed.
Theorem C61_removed : forall hp policy sync cfg ra unl y ev c, (forall n, prudent_cfg ra (cfg n)) -> sreached hp policy sync cfg ra unl y ev ->
  settled (y_f y) -> ECreated c ∈ sup_trace ev -> removed c (sup_trace ev) <-> status (y_w y) c = AShutDown.
Proof. intros * HC HR. by apply (SystemProofs.sys_removed hp policy sync cfg ra unl HC), sreached_inv. Qed.

(** ** When the supervisor agrees to end, all its actors are shut down, and nobody is linked. *)
Theorem C61_order : forall hp policy sync cfg ra unl y ev y' e c, (forall n, prudent_cfg ra (cfg n)) -> sreached hp policy sync cfg ra unl y ev ->
  ystep hp policy sync cfg ra unl y (YFam FVote) = Ok (y', e) -> YSup (EVoteShutdown true) ∈ e -> ECreated c ∈ sup_trace ev ->
  status (y_w y) c = AShutDown /\ unlinked (y_w y) c /\ removed c (sup_trace ev).
Proof. intros * HC HR. by apply (SystemProofs.sys_order hp policy sync cfg ra unl HC), sreached_inv. Qed.

(** ** The end of a system: the supervisor has begun to shut down, it creates no actors any
    more, nothing is under way, no actor owns a resource, the names are given back, and the
    links form no ring.  Then all actors are shut down and off the list. *)
Theorem C61_ends : forall hp policy sync cfg ra unl y ev ev1 b ev2, (forall n, prudent_cfg ra (cfg n)) -> sreached hp policy sync cfg ra unl y ev ->
  settled (y_f y) -> quiet (y_w y) -> sup_trace ev = ev1 ++ EVoteShutdown b :: ev2 -> (forall c, ECreated c ∉ ev2) ->
  (forall n, status (y_w y) n = AShuttingDown -> (forall i, ~ owned i (trace (y_w y) n)) /\ names_back (trace (y_w y) n)) ->
  (exists h : N -> nat, forall c s p id, EvLink s p id ∈ trace (y_w y) c -> (h c < h s)%nat) ->
  forall c, ECreated c ∈ sup_trace ev -> status (y_w y) c = AShutDown /\ unlinked (y_w y) c /\ removed c (sup_trace ev).
Proof. intros * HC HR. by apply (SystemProofs.sys_ends hp policy sync cfg ra unl HC), sreached_inv. Qed.
(** ... and the supervisor agrees to end, unless it waits for a spawner. *)
Theorem C61_votes : forall hp policy sync cfg ra unl y ev, (forall n, prudent_cfg ra (cfg n)) -> sreached hp policy sync cfg ra unl y ev ->
  cm_state (f_cm (y_f y)) = AShuttingDown -> f_phase (y_f y) = PWorking -> (forall c, ECreated c ∈ sup_trace ev -> removed c (sup_trace ev)) ->
  (forall a i, cm_map (f_cm (y_f y)) !! a = Some i -> ci_actor i = None -> ci_active i = false) ->
  exists y' e, ystep hp policy sync cfg ra unl y (YFam FVote) = Ok (y', e) /\ YSup (EVoteShutdown true) ∈ e.
Proof. intros * HC HR. by apply (SystemProofs.sys_votes hp policy sync cfg ra unl HC), sreached_inv. Qed.

(** ** Checking runs *)
Lemma sup_in x ev : x ∈ sup_trace ev -> YSup x ∈ ev.
Proof. unfold sup_trace. rewrite elem_of_list_omap. intros ([y|n y] & Hin & H); simplify_eq/=. done. Qed.
Section checks.
Context (l : list (N * N * bool)).
Notation ys := (ystep false PShutdownFailed false (NetProps.links_of l) 0 NetProps.yes).
Definition settledb (f : fstate) : bool :=
  bool_decide (f_q f = []) && bool_decide (map_Forall (fun _ m => m = []) (f_up f)) && bool_decide (map_Forall (fun _ m => m = []) (f_down f)) && bool_decide (0 ∉ f_bye f).
Lemma settledb_ok f : settledb f = true -> settled f.
Proof. unfold settledb. rewrite !andb_true_iff. intros [[[?%bool_decide_eq_true_1 ?%bool_decide_eq_true_1] ?%bool_decide_eq_true_1] ?%bool_decide_eq_true_1]. by apply FamilyProps.settled_maps. Qed.
Lemma ran_as ops (P : sys -> list yev -> bool) : guardedb ys (fun y o => bool_decide (yrule false PShutdownFailed false (NetProps.links_of l) 0 NetProps.yes y o)) (yinit false) ops = true ->
  match run ys (yinit false) ops with Ok (y, ev) => P y ev | _ => false end = true ->
  exists y ev, sreached false PShutdownFailed false (NetProps.links_of l) 0 NetProps.yes y ev /\ P y ev = true.
Proof.
  intros Hg. destruct (run ys (yinit false) ops) as [[y ev]| |] eqn:E; try done. intros H. exists y, ev. split; [|done]. exists ops. split; [|done].
  apply (guardedb_sound ys (fun y o => bool_decide (yrule false PShutdownFailed false (NetProps.links_of l) 0 NetProps.yes y o))); [|done]. intros ? ? ?. by eapply bool_decide_eq_true_1.
Qed.
Lemma sys_quiet cfg y ev : (forall n, prudent_cfg 0 (cfg n)) -> sreached false PShutdownFailed false cfg 0 NetProps.yes y ev -> NetProps.quietb (y_w y) = true -> quiet (y_w y).
Proof. intros HC HR. apply NetProps.quietb_ok. destruct (C61_parts _ _ _ _ _ _ _ _ HC HR) as [_ (nops & _ & Hr)]. by eapply NetProps.senders. Qed.
End checks.

(** ** Three actors in a row: 3 is a client of 2, which waits until 1 is operational. *)
Definition d := YFam FamilyProps.D.
Definition three : list yop := (YFam <$> FamilyProps.boot) ++ [YFam (FCreate false false); YFam (FCreate false false); YFam (FCreate false false)] ++ repeat d 6.
Definition sys_up : list yop :=
  three ++ (YNet <$> [NDeliver 2 1; NDeliver 3 2; NDeliver 2 3; NLocal 1 OStart; NDeliver 1 2; NLocal 2 OStart; NLocal 3 OStart]) ++ repeat d 3.
Definition sys_stop : list yop := sys_up ++ [YFam (FShutdown 0); d; YFam FVote] ++ repeat d 6.
Definition sys_down : list yop := sys_stop ++ (YNet <$> [NDeliver 1 2; NDeliver 2 3; NDeliver 3 2; NDeliver 2 1]) ++ repeat d 6.
Notation R := (NetProps.links_of NetProps.row).
Notation reached_row := (sreached false PShutdownFailed false R 0 NetProps.yes).

Example C61_up : exists y ev, reached_row y ev /\ settled (y_f y) /\ quiet (y_w y) /\ (EInitOk 1 ∈ sup_trace ev /\ EInitOk 2 ∈ sup_trace ev /\ EInitOk 3 ∈ sup_trace ev) /\
  linked_to 1 (trace (y_w y) 2) /\ linked_to 2 (trace (y_w y) 3) /\ status (y_w y) 1 = AOperational /\ status (y_w y) 2 = AOperational /\ status (y_w y) 3 = AOperational.
Proof.
  destruct (ran_as NetProps.row sys_up (fun y ev => settledb (y_f y) && NetProps.quietb (y_w y) && bool_decide (EInitOk 1 ∈ sup_trace ev /\ EInitOk 2 ∈ sup_trace ev /\ EInitOk 3 ∈ sup_trace ev) &&
    NetProps.linked_tob 1 (trace (y_w y) 2) && NetProps.linked_tob 2 (trace (y_w y) 3) && bool_decide (status (y_w y) 1 = AOperational) && bool_decide (status (y_w y) 2 = AOperational) && bool_decide (status (y_w y) 3 = AOperational)))
    as (y & ev & HR & H); [vm_compute; reflexivity..|].
  rewrite !andb_true_iff in H. destruct H as [[[[[[[H1 H2] H3] H4] H5] H6] H7] H8]. exists y, ev.
  split_and!; try (by apply NetProps.linked_tob_ok); [done|by apply settledb_ok|by eapply sys_quiet; [apply NetProps.row_prudent|..]|..];
    apply bool_decide_eq_true_1 in H3, H6, H7, H8; tauto.
Qed.
(** They are told to end.  Each waits for its clients; then everything is over, all are off the
    list, and the supervisor agrees. *)
Definition gone (y : sys) (ev : list yev) (c : N) : bool := bool_decide (ECreated c ∈ sup_trace ev) && bool_decide (EShutReq c ∈ sup_trace ev) && bool_decide (status (y_w y) c = AShutDown).
Example C61_down : exists y ev, reached_row y ev /\ settled (y_f y) /\ quiet (y_w y) /\
  (forall c, c ∈ [1; 2; 3] -> ECreated c ∈ sup_trace ev /\ EShutReq c ∈ sup_trace ev /\ status (y_w y) c = AShutDown /\ removed c (sup_trace ev)) /\
  exists y' e, ystep false PShutdownFailed false R 0 NetProps.yes y (YFam FVote) = Ok (y', e) /\ YSup (EVoteShutdown true) ∈ e.
Proof.
  destruct (ran_as NetProps.row sys_down (fun y ev => settledb (y_f y) && NetProps.quietb (y_w y) && forallb (gone y ev) [1; 2; 3] &&
    match ystep false PShutdownFailed false R 0 NetProps.yes y (YFam FVote) with Ok (_, e) => bool_decide (EVoteShutdown true ∈ sup_trace e) | _ => false end))
    as (y & ev & HR & H); [vm_compute; reflexivity..|].
  rewrite !andb_true_iff in H. destruct H as [[[H1 H2] H3] H4]. exists y, ev. split_and!; [done|by apply settledb_ok|by eapply sys_quiet; [apply NetProps.row_prudent|..]|..].
  - intros c Hc. rewrite forallb_forall in H3. apply elem_of_list_In, H3 in Hc. unfold gone in Hc. rewrite !andb_true_iff in Hc.
    destruct Hc as [[Ha%bool_decide_eq_true_1 Hb%bool_decide_eq_true_1] Hs%bool_decide_eq_true_1]. split_and!; try done.
    apply (C61_removed _ _ _ _ _ _ _ _ c NetProps.row_prudent HR); [by apply settledb_ok|done..].
  - destruct (ystep _ _ _ _ _ _ y (YFam FVote)) as [[y' e]| |] eqn:E; try done. exists y', e. split; [done|]. apply bool_decide_eq_true_1 in H4. by apply sup_in.
Qed.
(** Actor 3 is gone, but 1 has not heard from 2 yet: it has been asked and waits. *)
Example C61_waits : exists y ev, reached_row y ev /\ settled (y_f y) /\ EShutReq 1 ∈ sup_trace ev /\ status (y_w y) 1 = AShuttingDown /\ ~ removed 1 (sup_trace ev).
Proof.
  destruct (ran_as NetProps.row (sys_stop ++ repeat d 2) (fun y ev => settledb (y_f y) && bool_decide (ECreated 1 ∈ sup_trace ev) && bool_decide (EShutReq 1 ∈ sup_trace ev) && bool_decide (status (y_w y) 1 = AShuttingDown)))
    as (y & ev & HR & H); [vm_compute; reflexivity..|].
  rewrite !andb_true_iff in H. destruct H as [[[H1%settledb_ok H2%bool_decide_eq_true_1] H3%bool_decide_eq_true_1] H4%bool_decide_eq_true_1]. exists y, ev. split_and!; try done.
  rewrite (C61_removed _ _ _ _ _ _ _ _ 1 NetProps.row_prudent HR H1 H2), H4. done.
Qed.

(** ** A ring of links: the supervisor never ends.
    Actors 1 and 2 are clients of each other.  Both are asked to end, each waits for the other
    to unlink; nothing is under way, and the supervisor votes against its own end. *)
Definition two : list yop := (YFam <$> FamilyProps.boot) ++ [YFam (FCreate false false); YFam (FCreate false false)] ++ repeat d 4.
Definition ring_stop : list yop :=
  two ++ (YNet <$> [NDeliver 1 2; NDeliver 2 1; NDeliver 1 2; NDeliver 2 1; NLocal 1 OStart; NLocal 2 OStart]) ++ repeat d 2 ++ [YFam (FShutdown 0); d; YFam FVote] ++ repeat d 4.
Definition ring_tail : list yop := (YNet <$> [NDeliver 1 2; NDeliver 2 1; NDeliver 1 2; NDeliver 2 1]) ++ repeat d 4.
Notation O := (NetProps.links_of NetProps.ring).
Lemma ring_prudent : forall n, prudent_cfg 0 (O n).
Proof. NetProps.by_prudent_links. Qed.
Theorem C61_ring_refuted : exists y ev ev1 ev2, sreached false PShutdownFailed false O 0 NetProps.yes y ev /\ settled (y_f y) /\ quiet (y_w y) /\
  sup_trace ev = ev1 ++ EVoteShutdown false :: ev2 /\ (forall c, ECreated c ∉ ev2) /\
  (forall n, (forall i, ~ owned i (trace (y_w y) n)) /\ names_back (trace (y_w y) n)) /\
  (forall c, c ∈ [1; 2] -> ECreated c ∈ sup_trace ev /\ EShutReq c ∈ sup_trace ev /\ status (y_w y) c = AShuttingDown /\ ~ removed c (sup_trace ev)) /\
  exists y', ystep false PShutdownFailed false O 0 NetProps.yes y (YFam FVote) = Ok (y', [YSup (EVoteShutdown false)]).
Proof.
  destruct (ran_as NetProps.ring (ring_stop ++ ring_tail) (fun y ev => settledb (y_f y) && NetProps.quietb (y_w y) && NetProps.freeb (y_w y) &&
    forallb (fun c => bool_decide (ECreated c ∈ sup_trace ev) && bool_decide (EShutReq c ∈ sup_trace ev) && bool_decide (status (y_w y) c = AShuttingDown)) [1; 2] &&
    match rev (sup_trace ev) with EVoteShutdown false :: _ => true | _ => false end &&
    match ystep false PShutdownFailed false O 0 NetProps.yes y (YFam FVote) with Ok (_, [YSup (EVoteShutdown false)]) => true | _ => false end))
    as (y & ev & HR & H); [vm_compute; reflexivity..|].
  rewrite !andb_true_iff in H. destruct H as [[[[[H1%settledb_ok H2] H3] H4] H5] H6].
  destruct (rev (sup_trace ev)) as [|[] t] eqn:E; try done. destruct b; [done|]. exists y, ev, (rev t), [].
  split_and!; try done.
  - eapply sys_quiet; [apply ring_prudent|done..].
  - rewrite <- (rev_involutive (sup_trace ev)), E. done.
  - intros c Hc. by apply elem_of_nil in Hc.
  - apply NetProps.freeb_ok in H3 as [Ha Hb]. intros n. split; [apply Ha|left; apply Hb].
  - intros c Hc. rewrite forallb_forall in H4. apply elem_of_list_In, H4 in Hc. rewrite !andb_true_iff in Hc.
    destruct Hc as [[Ha%bool_decide_eq_true_1 Hb%bool_decide_eq_true_1] Hs%bool_decide_eq_true_1]. split_and!; try done.
    rewrite (C61_removed _ _ _ _ _ _ _ _ c ring_prudent HR H1 Ha), Hs. done.
  - destruct (ystep _ _ _ _ _ _ y (YFam FVote)) as [[y' e]| |] eqn:E'; try done. repeat case_match; try done. by exists y'.
Qed.

Print Assumptions C61_safe.
Print Assumptions C61_parts.
Print Assumptions C61_agree.
Print Assumptions C61_asked.
Print Assumptions C61_removed.
Print Assumptions C61_order.
Print Assumptions C61_ends.
Print Assumptions C61_votes.
Print Assumptions C61_ring_refuted.
