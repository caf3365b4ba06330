(** A supervisor together with its children: C52, C53 and C54. *)
From stdpp Require Import base list gmap.
From Verif Require Import Base ChildMgrModel ChildMgrSpec FamilyModel FamilySpec FamilyInv FamilyProofs FamilyInit.
Open Scope N_scope.

(** C52: if every child answers its shutdown request in time, the timeout of an
    init request does not overtake the messages of the queue, and no second trigger
    of the supervisor is queued when its plugin takes the supervisor off the list,
    then no assertion of the child manager fails, no lookup throws and no null
    actor is touched -- whatever the children do, in any order of the queues. *)
Theorem C52_safe : forall hp policy sync ops, guarded (fstep hp policy sync) orderly (finit hp) ops ->
  exists s ev, run (fstep hp policy sync) (finit hp) ops = Ok (s, ev).
Proof. intros hp policy sync ops Hg. destruct (fam_safe hp policy sync ops Hg) as (s & ev & H & _). eauto. Qed.

(** The messages which the child manager waits for are those of the queue, in the
    same order. *)
Theorem C52_agrees : forall hp policy sync ops s ev, guarded (fstep hp policy sync) orderly (finit hp) ops ->
  run (fstep hp policy sync) (finit hp) ops = Ok (s, ev) -> 0 ∉ f_bye s ->
  cm_createq (f_cm s) = omap (fun m => match m with MCreate c => Some c | _ => None end) (f_q s) /\
  cm_spawnq (f_cm s) = omap (fun m => match m with MSpawn a => Some a | _ => None end) (f_q s).
Proof. exact fam_agrees. Qed.

(** A family used below: a root supervisor with one local child (1) and a spawner
    which makes a child of another locality (3), restarted for ever. *)
Definition D := FDeliver true false false false false true false.
Definition Df := FDeliver true true false false false true false.
Definition fs := fstep false PShutdownFailed false.
Definition boot : list fop := [D; FInitialized; D; FStarted].
Definition always : scfg := SCfg RAlways 0 0 false.
Definition grow : list fop := boot ++ [FCreate false false; FSpawn always; D; Df; D; D; D; FChildInit 1 false; FChild 3 true false; FChildInit 3 false; FUp 3; D; D].
(** The spawned child asks for its end, and is replaced. *)
Definition renew : list fop := grow ++ [FShutdown 3; FUp 3; D; D; FChild 3 true false; FChild 3 true false; FChildDone 3; FUp 3; D; D].
(** The family ends. *)
Definition down : list fop := grow ++ [FShutdown 0; D; FVote; D; D; D; FChildDone 1; FChild 3 false false; FChild 3 true false; FChildDone 3; FUp 3; D; D; FVote].

Ltac by_guard := apply (guardedb_sound _ (fun s o => bool_decide (orderly s o)) orderly (fun s o => bool_decide_eq_true_1 _)); vm_compute; reflexivity.
Lemma outcome ops (P : fstate -> list cevent -> Prop) (Hd : forall s ev, Decision (P s ev)) :
  match run fs (finit false) ops with Ok (s, ev) => bool_decide (P s ev) | _ => false end = true ->
  exists s ev, run fs (finit false) ops = Ok (s, ev) /\ P s ev.
Proof. destruct (run fs (finit false) ops) as [[s ev]| |]; try done. intros H. exists s, ev. split; [done|]. by apply bool_decide_eq_true_1 in H. Qed.
Ltac by_outcome := match goal with |- ex (fun s => ex (fun ev => _ /\ @?P s ev)) => apply (outcome _ P _); vm_compute; reflexivity end.

Example C52_grow : guarded fs orderly (finit false) grow /\ exists s ev, run fs (finit false) grow = Ok (s, ev) /\
  EInitOk 1 ∈ ev /\ EInitOk 3 ∈ ev /\ f_q s = [] /\ 3 ∈ f_foreign s.
Proof. split; [by_guard|]. by_outcome. Qed.
Example C52_renew : guarded fs orderly (finit false) renew /\ exists s ev, run fs (finit false) renew = Ok (s, ev) /\
  ECreated 4 ∈ ev /\ removed 3 ev /\ cm_createq (f_cm s) = [4] /\ f_q s = [MCreate 4].
Proof.
  split; [by_guard|].
  assert (exists s ev, run fs (finit false) renew = Ok (s, ev) /\ (ECreated 4 ∈ ev /\ ERemoved 3 (Some 0) true false ∈ ev /\ cm_createq (f_cm s) = [4] /\ f_q s = [MCreate 4]))
    as (s & ev & H & H1 & H2 & H3).
  { by_outcome. }
  exists s, ev. split; [exact H|]. split; [exact H1|]. split; [|exact H3]. by exists (Some 0), true, false.
Qed.

(** Each rule is needed.  Without the last one: two calls of do_shutdown before the
    first trigger is delivered terminate a root supervisor without children. *)
Theorem C52_trigger_refuted : exists ops, run fs (finit false) ops = Crash /\
  (forall c, FShutTimer c ∉ ops) /\ (forall c, FInitTimer c ∉ ops).
Proof.
  exists (boot ++ [FShutdown 0; FShutdown 0; D; FVote; FDeactivate true false; D]). split; [vm_compute; reflexivity|].
  split; intros c; cbn; rewrite ?not_elem_of_cons; repeat split; try done; apply not_elem_of_nil.
Qed.
(** Without the first one: a child which did not answer in time asks for its shutdown. *)
Theorem C52_timeout_refuted : exists ops, run fs (finit false) ops = Crash /\
  guarded fs (fun s o => match o with FShutTimer _ => True | _ => orderly s o end) (finit false) ops.
Proof.
  exists (boot ++ [FCreate true false; D; D; FShutdown 1; FUp 1; D; D; FShutTimer 1; D; FShutdown 1; FUp 1; D]). split; [vm_compute; reflexivity|].
  apply (guardedb_sound _ (fun s o => match o with FShutTimer _ => true | _ => bool_decide (orderly s o) end)); [|vm_compute; reflexivity].
  intros s o. destruct o; try done; apply bool_decide_eq_true_1.
Qed.
(** Without the second one: the init timeout of a spawned child fires when its answer
    and its end are queued already. *)
Theorem C52_overtake_refuted : exists ops, run fs (finit false) ops = Crash /\
  guarded fs (fun s o => match o with FInitTimer _ => True | _ => orderly s o end) (finit false) ops.
Proof.
  exists (boot ++ [FSpawn always; Df; D; D; FChild 2 true false; FShutdown 2; FChildInit 2 false; FUp 2; D; D; FChild 2 true false; FChild 2 true false;
    FChildDone 2; FUp 2; FUp 2; FInitTimer 2; D; D; D]). split; [vm_compute; reflexivity|].
  apply (guardedb_sound _ (fun s o => match o with FInitTimer _ => true | _ => bool_decide (orderly s o) end)); [|vm_compute; reflexivity].
  intros s o. destruct o; try done; apply bool_decide_eq_true_1.
Qed.

(** C53: when nothing is under way any more, a child shuts down or has done so
    exactly if the supervisor asked it to ... *)
Theorem C53_asked : forall hp policy sync ops s ev c, guarded (fstep hp policy sync) orderly (finit hp) ops ->
  run (fstep hp policy sync) (finit hp) ops = Ok (s, ev) -> settled s -> ECreated c ∈ ev -> EShutReq c ∈ ev <-> shutting s c.
Proof. exact fam_asked. Qed.
(** ... and it has shut down exactly if it is off the list. *)
Theorem C53_removed : forall hp policy sync ops s ev c, guarded (fstep hp policy sync) orderly (finit hp) ops ->
  run (fstep hp policy sync) (finit hp) ops = Ok (s, ev) -> settled s -> ECreated c ∈ ev -> removed c ev <-> state_of s c = Some AShutDown.
Proof. exact fam_removed. Qed.
Theorem C53_listed : forall hp policy sync ops s ev c, guarded (fstep hp policy sync) orderly (finit hp) ops ->
  run (fstep hp policy sync) (finit hp) ops = Ok (s, ev) -> ECreated c ∈ ev ->
  removed c ev <-> ~ exists i, cm_map (f_cm s) !! c = Some i /\ ci_actor i = Some c.
Proof. exact fam_entry. Qed.
(** A child which was asked and is not off the list is waited for: its request may
    still time out, or its subscriptions are being removed. *)
Theorem C53_waits : forall hp policy sync ops s ev c, guarded (fstep hp policy sync) orderly (finit hp) ops ->
  run (fstep hp policy sync) (finit hp) ops = Ok (s, ev) -> 0 ∉ f_bye s -> ECreated c ∈ ev -> EShutReq c ∈ ev -> ~ removed c ev ->
  c ∈ cm_unsub (f_cm s) \/ c ∈ f_shut s.
Proof. exact fam_waits. Qed.
(** Children end before their supervisor: when the child manager agrees to the
    shutdown of the supervisor, every child has shut down, and is off the list. *)
Theorem C53_order : forall hp policy sync ops s ev s' e c, guarded (fstep hp policy sync) orderly (finit hp) ops ->
  run (fstep hp policy sync) (finit hp) ops = Ok (s, ev) -> fstep hp policy sync s FVote = Ok (s', e) -> EVoteShutdown true ∈ e ->
  ECreated c ∈ ev -> state_of s' c = Some AShutDown /\ removed c ev.
Proof. exact fam_order. Qed.

Lemma settled_maps s : f_q s = [] -> map_Forall (fun _ l => l = []) (f_up s) -> map_Forall (fun _ l => l = []) (f_down s) -> 0 ∉ f_bye s -> settled s.
Proof.
  intros Hq Hu Hd Hb. split_and!; try done. intros c. unfold upl, downl. split.
  - destruct (f_up s !! c) eqn:H; [|done]. by apply Hu in H.
  - destruct (f_down s !! c) eqn:H; [|done]. by apply Hd in H.
Qed.
Example C53_settled : guarded fs orderly (finit false) (renew ++ [D; D]) /\ exists s ev, run fs (finit false) (renew ++ [D; D]) = Ok (s, ev) /\ settled s /\
  state_of s 3 = Some AShutDown /\ state_of s 1 = Some AInitialized /\ EShutReq 3 ∈ ev /\ EShutReq 1 ∉ ev.
Proof.
  split; [by_guard|].
  assert (exists s ev, run fs (finit false) (renew ++ [D; D]) = Ok (s, ev) /\
    ((f_q s = [] /\ map_Forall (fun _ l => l = []) (f_up s) /\ map_Forall (fun _ l => l = []) (f_down s) /\ 0 ∉ f_bye s) /\
    state_of s 3 = Some AShutDown /\ state_of s 1 = Some AInitialized /\ EShutReq 3 ∈ ev /\ EShutReq 1 ∉ ev)) as (s & ev & H & (H1 & H2 & H3 & H4) & Hr).
  { by_outcome. }
  exists s, ev. split; [exact H|]. split; [|exact Hr]. by apply settled_maps.
Qed.
Example C53_down : guarded fs orderly (finit false) down /\ exists s ev, run fs (finit false) down = Ok (s, ev) /\
  EVoteShutdown true ∈ ev /\ ECreated 1 ∈ ev /\ ECreated 3 ∈ ev /\ state_of s 1 = Some AShutDown /\ state_of s 3 = Some AShutDown.
Proof.
  split; [by_guard|].
  by_outcome.
Qed.

(** A child which times out is off the list while it still runs. *)
Theorem C53_timeout_refuted : exists ops s ev, run fs (finit false) ops = Ok (s, ev) /\ f_q s = [] /\ removed 1 ev /\ state_of s 1 = Some AShuttingDown.
Proof.
  exists (boot ++ [FCreate false false; D; D; FChildInit 1 false; D; FShutdown 1; D; D; D; FShutTimer 1; D]).
  assert (exists s ev, run fs (finit false) (boot ++ [FCreate false false; D; D; FChildInit 1 false; D; FShutdown 1; D; D; D; FShutTimer 1; D]) = Ok (s, ev) /\
    (f_q s = [] /\ ERemoved 1 None true false ∈ ev /\ state_of s 1 = Some AShuttingDown)) as (s & ev & H & H1 & H2 & H3).
  { by_outcome. }
  exists s, ev. split; [exact H|]. split; [exact H1|]. split; [|exact H3]. by exists None, true, false.
Qed.

(** C54: when nothing is under way any more, a child which was not asked to shut down
    was asked to initialize, and either it answered that it is ready, or the failure of
    some child ends the initialization of the supervisor or the supervisor itself, or
    its request is still open: the timer runs, and the child holds the request (or is
    of another locality while the supervisor shuts down). *)
Theorem C54_init : forall hp policy sync ops s ev c, guarded (fstep hp policy sync) orderly (finit hp) ops ->
  run (fstep hp policy sync) (finit hp) ops = Ok (s, ev) -> settled s -> ECreated c ∈ ev -> EShutReq c ∉ ev ->
  EInitReq c ∈ ev /\ (EInitOk c ∈ ev \/ EInitError ∈ ev \/ ESelfShutdown ∈ ev \/
    (c ∈ f_init s /\ ((exists ch, cm_children (f_cm s) !! c = Some ch /\ ch_initreq ch = true) \/ (c ∈ f_foreign s /\ 5 <= rank (cm_state (f_cm s)))))).
Proof. exact fam_init. Qed.
(** A root supervisor which decides to end, for the failure of a child, shuts down. *)
Theorem C54_self : forall policy sync ops s ev, guarded (fstep false policy sync) orderly (finit false) ops ->
  run (fstep false policy sync) (finit false) ops = Ok (s, ev) -> settled s -> ESelfShutdown ∈ ev \/ EEscalate ∈ ev ->
  cm_state (f_cm s) = AShuttingDown \/ cm_state (f_cm s) = AShutDown.
Proof.
  intros policy sync ops s ev Hg H Hs Hx. pose proof (fam_self false policy sync ops s ev eq_refl Hg H Hs Hx) as Hr.
  destruct (cm_state (f_cm s)); cbn in Hr; auto; lia.
Qed.
(** A call of do_shutdown is not lost: a child which calls it is asked to shut down ... *)
Theorem C54_trigger : forall hp policy sync ops1 ops2 s1 ev1 s2 ev2 c st,
  guarded (fstep hp policy sync) orderly (finit hp) (ops1 ++ FShutdown c :: ops2) ->
  run (fstep hp policy sync) (finit hp) ops1 = Ok (s1, ev1) -> ECreated c ∈ ev1 -> state_of s1 c = Some st -> st <> AShuttingDown -> st <> AShutDown ->
  run (fstep hp policy sync) (finit hp) (ops1 ++ FShutdown c :: ops2) = Ok (s2, ev2) -> settled s2 -> EShutReq c ∈ ev2.
Proof. exact fam_trigger. Qed.
(** ... and a root supervisor which calls it shuts down. *)
Theorem C54_do_shutdown : forall policy sync ops1 ops2 s2 ev2,
  guarded (fstep false policy sync) orderly (finit false) (ops1 ++ FShutdown 0 :: ops2) ->
  run (fstep false policy sync) (finit false) (ops1 ++ FShutdown 0 :: ops2) = Ok (s2, ev2) -> settled s2 ->
  cm_state (f_cm s2) = AShuttingDown \/ cm_state (f_cm s2) = AShutDown.
Proof.
  intros policy sync ops1 ops2 s2 ev2 Hg H Hs. pose proof (fam_do_shutdown false policy sync ops1 ops2 s2 ev2 eq_refl Hg H Hs) as Hr.
  destruct (cm_state (f_cm s2)); cbn in Hr; auto; lia.
Qed.

Ltac by_settled ops Q :=
  assert (exists s ev, run fs (finit false) ops = Ok (s, ev) /\
    ((f_q s = [] /\ map_Forall (fun _ l => l = []) (f_up s) /\ map_Forall (fun _ l => l = []) (f_down s) /\ 0 ∉ f_bye s) /\ Q s ev)) as (s & ev & H & (H1 & H2 & H3 & H4) & Hr);
  [by_outcome|exists s, ev; split; [exact H|]; split; [by apply settled_maps|exact Hr]].
(** One child is ready, another still initializes. *)
Example C54_init_ex : guarded fs orderly (finit false) (grow ++ [FCreate false false; D; D]) /\ exists s ev,
  run fs (finit false) (grow ++ [FCreate false false; D; D]) = Ok (s, ev) /\ settled s /\ EInitOk 1 ∈ ev /\ EInitOk 4 ∉ ev /\ ECreated 4 ∈ ev /\ EShutReq 4 ∉ ev /\ 4 ∈ f_init s /\ EInitError ∉ ev /\ ESelfShutdown ∉ ev.
Proof.
  split; [by_guard|].
  by_settled (grow ++ [FCreate false false; D; D]) (fun (s : fstate) (ev : list cevent) => EInitOk 1 ∈ ev /\ EInitOk 4 ∉ ev /\ ECreated 4 ∈ ev /\ EShutReq 4 ∉ ev /\ 4 ∈ f_init s /\ EInitError ∉ ev /\ ESelfShutdown ∉ ev).
Qed.
(** A child fails to initialize while its supervisor initializes: the initialization
    of the supervisor is answered with an error. *)
Definition early_fail : list fop := [FCreate false false; D; D; D; FChildInit 1 true; D; D; D; D].
Example C54_error_ex : guarded (fstep false PShutdownSelf false) orderly (finit false) early_fail /\ exists s ev,
  run (fstep false PShutdownSelf false) (finit false) early_fail = Ok (s, ev) /\ EInitError ∈ ev.
Proof.
  split; [by_guard|].
  assert (exists s ev, run (fstep false PShutdownSelf false) (finit false) early_fail = Ok (s, ev) /\ bool_decide (EInitError ∈ ev) = true) as (s & ev & H & H1).
  { eexists _, _. vm_compute. split; reflexivity. }
  exists s, ev. split; [exact H|]. by apply bool_decide_eq_true_1 in H1.
Qed.
(** A spawned child which fails makes its supervisor end. *)
Definition fatal : list fop := boot ++ [FSpawn (SCfg RNormalOnly 0 0 true); D; D; D; FChildInit 2 true; D; D; D; D; FChildDone 2; D; D; D].
Example C54_self_ex : guarded fs orderly (finit false) fatal /\ exists s ev,
  run fs (finit false) fatal = Ok (s, ev) /\ settled s /\ EEscalate ∈ ev /\ cm_state (f_cm s) = AShuttingDown.
Proof. split; [by_guard|]. by_settled fatal (fun (s : fstate) (ev : list cevent) => EEscalate ∈ ev /\ cm_state (f_cm s) = AShuttingDown). Qed.
Example C54_trigger_ex : guarded fs orderly (finit false) (grow ++ FShutdown 3 :: [FUp 3; D; D; FChild 3 true false; FChild 3 true false]) /\ exists s ev,
  run fs (finit false) (grow ++ FShutdown 3 :: [FUp 3; D; D; FChild 3 true false; FChild 3 true false]) = Ok (s, ev) /\ settled s /\ EShutReq 3 ∈ ev.
Proof. split; [by_guard|]. by_settled (grow ++ FShutdown 3 :: [FUp 3; D; D; FChild 3 true false; FChild 3 true false]) (fun (s : fstate) (ev : list cevent) => EShutReq 3 ∈ ev). Qed.
Example C54_do_shutdown_ex : guarded fs orderly (finit false) (boot ++ FShutdown 0 :: [D]) /\ exists s ev,
  run fs (finit false) (boot ++ FShutdown 0 :: [D]) = Ok (s, ev) /\ settled s /\ cm_state (f_cm s) = AShuttingDown.
Proof. split; [by_guard|]. by_settled (boot ++ FShutdown 0 :: [D]) (fun (s : fstate) (ev : list cevent) => cm_state (f_cm s) = AShuttingDown). Qed.

Print Assumptions C52_safe.
Print Assumptions C52_agrees.
Print Assumptions C52_trigger_refuted.
Print Assumptions C52_timeout_refuted.
Print Assumptions C52_overtake_refuted.
Print Assumptions C53_asked.
Print Assumptions C53_removed.
Print Assumptions C53_listed.
Print Assumptions C53_waits.
Print Assumptions C53_order.
Print Assumptions C53_timeout_refuted.
Print Assumptions C54_init.
Print Assumptions C54_self.
Print Assumptions C54_trigger.
Print Assumptions C54_do_shutdown.
