(** C82: a whole tree of supervisors can become operational; who comes too late does not. *)
From stdpp Require Import base list gmap.
From Verif Require Import Base ChildMgrModel FamilyModel FamilySpec FamilyStartSpec FamilyUpSpec TreeModel TreeSpec TreeStartSpec TreeUpSpec TreeTopSpec TreeAllSpec.
From Verif Require Import FamilyOnce TreeAllProofs TreeLateProofs.
From Verif Require TreeProps TreeUpProps TreeTopProps StartProps.
Open Scope N_scope.

(** Whatever happened before: if the root is not on its way out, nobody ends or has failed, and no supervisor
    with synchronized start has started, then messages which are taken and actors and supervisors
    which answer make everybody operational, not only the root. Each is started only when its
    supervisor has told it to, and a supervisor starts only when none of its actors initializes, so
    that no trigger comes too early. *)
Theorem C82_all : forall pol sync ops t ev rd, guarded (tstep pol sync) tidy tinit ops -> run (tstep pol sync) tinit ops = Ok (t, ev) -> tpeaceful t ->
  t !! [] = Some rd -> coming (sup_state rd) -> unstarted sync t ->
  exists ops' t' e, Forall tsmooth_all ops' /\ guarded (tstep pol sync) tidy_timely t ops' /\ run (tstep pol sync) t ops' = Ok (t', e) /\ all_up t' /\ tpeaceful t'.
Proof. exact tree_all. Qed.

(** Without synchronized start this is always so: nobody comes too late. *)
Theorem C82_free_all : forall pol sync ops t ev rd, (forall n, sync n = false) -> guarded (tstep pol sync) tidy tinit ops -> run (tstep pol sync) tinit ops = Ok (t, ev) -> tpeaceful t ->
  t !! [] = Some rd -> coming (sup_state rd) ->
  exists ops' t' e, Forall tsmooth_all ops' /\ guarded (tstep pol sync) tidy_timely t ops' /\ run (tstep pol sync) t ops' = Ok (t', e) /\ all_up t' /\ tpeaceful t'.
Proof. exact tree_all_free. Qed.

(** Before that nobody is left initializing; for this it does not matter who has started. *)
Theorem C82_init : forall pol sync ops t ev rd, guarded (tstep pol sync) tidy tinit ops -> run (tstep pol sync) tinit ops = Ok (t, ev) -> tpeaceful t ->
  t !! [] = Some rd -> coming (sup_state rd) ->
  exists ops' t' e, Forall tsmooth ops' /\ guarded (tstep pol sync) tidy t ops' /\ run (tstep pol sync) t ops' = Ok (t', e) /\ tpeaceful t' /\ still t' /\
    forall n nd c, t' !! n = Some nd -> c <> 0 -> state_of (n_fam nd) c <> Some AInitializing.
Proof. exact tree_all_init. Qed.

(** A child gets one init request: when it has answered, neither it nor any queue holds another. *)
Theorem C82_once : forall hp policy sync c, c <> 0 -> forall ops s ev ch, guarded (fstep hp policy sync) orderly (finit hp) ops -> run (fstep hp policy sync) (finit hp) ops = Ok (s, ev) ->
  cm_children (f_cm s) !! c = Some ch -> ch_state ch = AInitialized \/ ch_state ch = AOperational ->
  ch_initreq ch = false /\ MInitReq c ∉ f_q s /\ MInitReq c ∉ downl s c /\ MCreate c ∉ f_q s.
Proof. exact fam_once. Qed.

(** Without synchronized start a child is told to start as soon as its answer arrives. *)
Theorem C82_free : forall hp policy sync ops s ev c, sync = false -> c <> 0 -> guarded (fstep hp policy sync) orderly (finit hp) ops -> run (fstep hp policy sync) (finit hp) ops = Ok (s, ev) ->
  EInitOk c ∈ ev -> EStart c ∈ ev.
Proof. exact ok_starts. Qed.

(** With synchronized start: who has not been told to start when its supervisor has had its own start,
    is never told, and never operational. *)
Theorem C82_late : forall pol sync ops t ev n nd c ops' t' e nd', guarded (tstep pol sync) tidy_told tinit ops -> run (tstep pol sync) tinit ops = Ok (t, ev) -> sync n = true ->
  t !! n = Some nd -> past (sup_state nd) -> c <> 0 -> EStart c ∉ n_ev nd ->
  guarded (tstep pol sync) tidy_told t ops' -> run (tstep pol sync) t ops' = Ok (t', e) -> t' !! n = Some nd' -> EStart c ∉ n_ev nd' /\ state_of (n_fam nd') c <> Some AOperational.
Proof. exact tree_late. Qed.

(** ** Runs *)
Notation synced := TreeTopProps.synced.
Notation D := TreeProps.D.
Notation is := TreeTopProps.is.
Definition started : list top := TreeTopProps.to_root ++ TreeTopProps.all_up.
Definition late : list top := started ++ [TOp [1; 1] (FCreate false false); D [1; 1]; D [1; 1]; TOp [1; 1] (FChildInit 2 false); D [1; 1]].
Definition calm_at (t : tstate) (c : N) : bool :=
  TreeUpProps.tpeacefulb t && forallb (fun x => StartProps.stillb x.2) (map_to_list t) && is AInitialized t [1; 1] c && TreeUpProps.is_up AOperational t [1; 1] && negb (TreeTopProps.triggeredb t [1; 1] c).
Lemma calm_at_sound t c : calm_at t c = true -> tpeaceful t /\ still t /\ exists nd, t !! [1; 1] = Some nd /\ sup_state nd = AOperational /\ state_of (n_fam nd) c = Some AInitialized /\ EStart c ∉ n_ev nd.
Proof.
  unfold calm_at. intros [[[[A B]%andb_true_iff C]%andb_true_iff E]%andb_true_iff F]%andb_true_iff. split; [by apply TreeUpProps.tpeacefulb_sound|]. split.
  - intros n nd Hn. rewrite forallb_forall in B. apply elem_of_map_to_list, elem_of_list_In, B in Hn. by apply StartProps.stillb_settled.
  - unfold is, TreeUpProps.is_up, TreeTopProps.triggeredb in *. destruct (t !! [1; 1]) as [nd|]; [|discriminate]. apply bool_decide_eq_true_1 in C, E. apply negb_true_iff, bool_decide_eq_false_1 in F. by exists nd.
Qed.
Lemma late_end : match run synced tinit late with Ok (t, _) => calm_at t 2 | _ => false end = true.
Proof. vm_compute. reflexivity. Qed.
Lemma late_guard : guarded synced tidy_told tinit late.
Proof. apply (guardedb_sound _ TreeTopProps.tidy_toldb); [apply TreeTopProps.tidy_toldb_sound|]. vm_compute. reflexivity. Qed.
(** So the whole tree does not always become operational: an actor which is created in a supervisor
    with synchronized start which works already initializes, and waits for its start for ever. Nobody
    has ended, nobody has failed, and nothing is under way. *)
Theorem C82_created_late_refuted : exists ops t ev (n : list N) (nd : node) (c : N), guarded synced tidy_told tinit ops /\ run synced tinit ops = Ok (t, ev) /\ tpeaceful t /\ still t /\
  t !! n = Some nd /\ sup_state nd = AOperational /\ c <> 0 /\ state_of (n_fam nd) c = Some AInitialized /\
  forall ops' t' e, guarded synced tidy_told t ops' -> run synced t ops' = Ok (t', e) -> ~ exists nd', t' !! n = Some nd' /\ state_of (n_fam nd') c = Some AOperational.
Proof.
  pose proof late_end as H. destruct (run synced tinit late) as [[t ev]| |] eqn:Hr; [|discriminate..]. apply calm_at_sound in H as (A & B & nd & C & E & F & G).
  exists late, t, ev, [1; 1], nd, 2. split; [exact late_guard|]. split; [exact Hr|]. split; [exact A|]. split; [exact B|]. split; [exact C|]. split; [exact E|]. split; [discriminate|]. split; [exact F|].
  intros ops' t' e Hg' Hr' (nd' & Hn' & Ho). eapply (tree_late _ (fun _ => true) late t ev [1; 1] nd 2 ops' t' e nd'); [exact late_guard|exact Hr|reflexivity|exact C|by rewrite E|discriminate|exact G|exact Hg'|exact Hr'|exact Hn'|exact Ho].
Qed.
(** The same holds for an actor which is spawned again: the first one worked. *)
Definition again : list top := TreeProps.begin ++ [TOp [1; 1] (FSpawn (SCfg RAlways 0 0 false)); D [1; 1]; D [1; 1]; D [1; 1]; TOp [1; 1] (FChildInit 1 false); D [1; 1]; TOp [1; 1] (FChildInit 3 false); D [1; 1];
  TInited [1] 1; D [1]; TInited [] 1; D []; TOp [] FInitialized; D []; TOp [] FStarted; TStarted [] 1; TStarted [1] 1; TOp [1; 1] (FChildStart 1); TOp [1; 1] (FChildStart 3)].
Definition ends : list top := [TOp [1; 1] (FShutdown 3); D [1; 1]; D [1; 1]; D [1; 1]; TOp [1; 1] (FChildDone 3); D [1; 1]; D [1; 1]; D [1; 1]; D [1; 1]; TOp [1; 1] (FChildInit 4 false); D [1; 1]].
Lemma again_end : match run synced tinit (again ++ ends) with Ok (t, _) => calm_at t 4 && is AShutDown t [1; 1] 3 && TreeTopProps.triggeredb t [1; 1] 3 | _ => false end = true.
Proof. vm_compute. reflexivity. Qed.
Lemma again_guard : guarded synced tidy_told tinit (again ++ ends).
Proof. apply (guardedb_sound _ TreeTopProps.tidy_toldb); [apply TreeTopProps.tidy_toldb_sound|]. vm_compute. reflexivity. Qed.
Theorem C82_respawned_late_refuted : exists t ev (nd : node), guarded synced tidy_told tinit (again ++ ends) /\ run synced tinit (again ++ ends) = Ok (t, ev) /\ tpeaceful t /\ still t /\
  t !! [1; 1] = Some nd /\ sup_state nd = AOperational /\ EStart 3 ∈ n_ev nd /\ state_of (n_fam nd) 3 = Some AShutDown /\ state_of (n_fam nd) 4 = Some AInitialized /\ is_Some (cm_map (f_cm (n_fam nd)) !! 4) /\
  forall ops' t' e, guarded synced tidy_told t ops' -> run synced t ops' = Ok (t', e) -> ~ exists nd', t' !! [1; 1] = Some nd' /\ state_of (n_fam nd') 4 = Some AOperational.
Proof.
  assert (Hm : match run synced tinit (again ++ ends) with Ok (t, _) => match t !! [1; 1] with Some nd => bool_decide (is_Some (cm_map (f_cm (n_fam nd)) !! 4)) | None => false end | _ => false end = true) by (vm_compute; reflexivity).
  pose proof again_end as H. destruct (run synced tinit (again ++ ends)) as [[t ev]| |] eqn:Hr; [|discriminate..]. apply andb_true_iff in H as [[H H1]%andb_true_iff H2]. apply calm_at_sound in H as (A & B & nd & C & E & F & G).
  unfold is, TreeTopProps.triggeredb in *. rewrite C in H1, H2, Hm. apply bool_decide_eq_true_1 in H1, H2, Hm.
  exists t, ev, nd. split; [exact again_guard|]. split; [reflexivity|]. split; [exact A|]. split; [exact B|]. split; [exact C|]. split; [exact E|]. split; [exact H2|]. split; [exact H1|]. split; [exact F|]. split; [exact Hm|].
  intros ops' t' e Hg' Hr' (nd' & Hn' & Ho). eapply (tree_late _ (fun _ => true) (again ++ ends) t ev [1; 1] nd 4 ops' t' e nd'); [exact again_guard|exact Hr|reflexivity|exact C|by rewrite E|discriminate|exact G|exact Hg'|exact Hr'|exact Hn'|exact Ho].
Qed.
(** After its start a synchronized supervisor tells nobody to start any more; for this no rule is needed. *)
Theorem C82_silent : forall pol sync ops t n nd c t' e, sync n = true -> t !! n = Some nd -> past (sup_state nd) -> c <> 0 -> run (tstep pol sync) t ops = Ok (t', e) ->
  exists nd' l, t' !! n = Some nd' /\ n_ev nd' = n_ev nd ++ l /\ EStart c ∉ l.
Proof. exact tree_since. Qed.
(** Who initializes when its supervisor starts is told too early: an actor which is not initialized
    ignores the trigger (starter.cpp 72-76), and there is no second one. Here the trigger of actor 2
    is sent before its init request is. *)
Definition early : list top := TreeTopProps.to_root ++ [TOp [1; 1] (FCreate false false); TOp [] FStarted; TStarted [] 1; TStarted [1] 1].
Lemma early_run : match run synced tinit early with Ok (t, _) => match t !! [1; 1] with Some nd =>
  bool_decide (sup_state nd = AOperational /\ state_of (n_fam nd) 2 = Some AInitializing /\ EStart 2 ∈ n_ev nd /\ EInitReq 2 ∉ n_ev nd) && TreeUpProps.tpeacefulb t | None => false end | _ => false end = true.
Proof. vm_compute. reflexivity. Qed.
Theorem C82_told_early_refuted : exists ops t ev (n : list N) (nd : node) (c : N), guarded synced tidy_told tinit ops /\ run synced tinit ops = Ok (t, ev) /\ tpeaceful t /\
  t !! n = Some nd /\ sup_state nd = AOperational /\ state_of (n_fam nd) c = Some AInitializing /\ EStart c ∈ n_ev nd /\ EInitReq c ∉ n_ev nd /\
  forall ops' t' e, run synced t ops' = Ok (t', e) -> exists nd' l, t' !! n = Some nd' /\ n_ev nd' = n_ev nd ++ l /\ EStart c ∉ l.
Proof.
  pose proof early_run as H. destruct (run synced tinit early) as [[t ev]| |] eqn:Hr; [|discriminate..]. destruct (t !! [1; 1]) as [nd|] eqn:Hn; [|discriminate].
  apply andb_true_iff in H as [H P]. apply bool_decide_eq_true_1 in H as (A & B & C & E). exists early, t, ev, [1; 1], nd, 2.
  split; [apply (guardedb_sound _ TreeTopProps.tidy_toldb); [apply TreeTopProps.tidy_toldb_sound|]; vm_compute; reflexivity|]. split; [exact Hr|]. split; [by apply TreeUpProps.tpeacefulb_sound|]. split; [exact Hn|].
  split; [exact A|]. split; [exact B|]. split; [exact C|]. split; [exact E|]. intros ops' t' e Hr'. eapply (tree_since _ (fun _ => true) ops' t [1; 1] nd 2 t' e); [reflexivity|exact Hn|by rewrite A|discriminate|exact Hr'].
Qed.
(** Without synchronized start the same actor is started at once, and works. *)
Notation ts := TreeProps.ts.
Example C82_free_again : guarded ts tidy_told tinit (again ++ ends ++ [TOp [1; 1] (FChildStart 4)]) /\
  match run ts tinit (again ++ ends ++ [TOp [1; 1] (FChildStart 4)]) with Ok (t, _) => is AOperational t [1; 1] 4 && TreeTopProps.triggeredb t [1; 1] 4 | _ => false end = true.
Proof. split; [apply (guardedb_sound _ TreeTopProps.tidy_toldb); [apply TreeTopProps.tidy_toldb_sound|]; vm_compute; reflexivity|]. vm_compute. reflexivity. Qed.

(** Its premises after the start of everybody, with the actor which comes too late under synchronized start. *)
Lemma again_free : match run ts tinit (again ++ ends) with Ok (t, _) => TreeUpProps.tpeacefulb t && TreeUpProps.is_up AOperational t [] && is AInitialized t [1; 1] 4 | _ => false end = true.
Proof. vm_compute. reflexivity. Qed.
Example C82_free_premises : guarded ts tidy tinit (again ++ ends) /\ exists t ev rd, run ts tinit (again ++ ends) = Ok (t, ev) /\ tpeaceful t /\ t !! [] = Some rd /\ sup_state rd = AOperational /\ is AInitialized t [1; 1] 4 = true.
Proof.
  split; [apply (guardedb_sound _ (fun t o => bool_decide (tidy t o)) tidy (fun t o => bool_decide_eq_true_1 _)); vm_compute; reflexivity|].
  pose proof again_free as H. destruct (run ts tinit (again ++ ends)) as [[t ev]| |]; [|discriminate..]. exists t, ev. apply andb_true_iff in H as [[A B]%andb_true_iff C]. unfold TreeUpProps.is_up in B.
  destruct (t !! []) as [rd|]; [|discriminate]. apply bool_decide_eq_true_1 in B. exists rd. split; [reflexivity|]. split; [by apply TreeUpProps.tpeacefulb_sound|]. split; [reflexivity|]. split; [exact B|exact C].
Qed.
(** The premises of C82_all: the tree of TreeUpProps.v with synchronized start everywhere, before anybody has answered. *)
Definition unstartedb (t : tstate) : bool := forallb (fun x => negb (bool_decide (sup_state x.2 = AOperational))) (map_to_list t).
Lemma unstartedb_sound t : unstartedb t = true -> unstarted (fun _ => true) t.
Proof. intros H n nd Hn _. unfold unstartedb in H. rewrite forallb_forall in H. apply elem_of_map_to_list, elem_of_list_In, H in Hn. by apply negb_true_iff, bool_decide_eq_false_1 in Hn. Qed.
Lemma dawn_run : match run synced tinit TreeUpProps.dawn with Ok (t, _) => TreeUpProps.tpeacefulb t && unstartedb t && TreeUpProps.is_up AInitializing t [] | _ => false end = true.
Proof. vm_compute. reflexivity. Qed.
Example C82_dawn : guarded synced tidy tinit TreeUpProps.dawn /\ exists t ev rd, run synced tinit TreeUpProps.dawn = Ok (t, ev) /\ tpeaceful t /\ t !! [] = Some rd /\ sup_state rd = AInitializing /\ unstarted (fun _ => true) t.
Proof.
  split; [apply (guardedb_sound _ (fun t o => bool_decide (tidy t o)) tidy (fun t o => bool_decide_eq_true_1 _)); vm_compute; reflexivity|].
  pose proof dawn_run as H. destruct (run synced tinit TreeUpProps.dawn) as [[t ev]| |]; [|discriminate..]. exists t, ev. apply andb_true_iff in H as [[A B]%andb_true_iff C]. unfold TreeUpProps.is_up in C.
  destruct (t !! []) as [rd|]; [|discriminate]. apply bool_decide_eq_true_1 in C. exists rd. split; [reflexivity|]. split; [by apply TreeUpProps.tpeacefulb_sound|]. split; [reflexivity|]. split; [exact C|by apply unstartedb_sound].
Qed.
(** One way up: five work at the end, three of them supervisors, and no trigger comes too early. *)
Definition settled_inb (t : tstate) (n : list N) : bool := match t !! n with Some nd => forallb (fun x => negb (bool_decide (x.1 <> 0 /\ ch_state x.2 = AInitializing))) (map_to_list (cm_children (f_cm (n_fam nd)))) | None => true end.
Definition tidy_timelyb (t : tstate) (o : top) : bool := TreeTopProps.tidy_toldb t o && match o with TOp n FStarted => settled_inb t n | TStarted n c => settled_inb t (c :: n) | _ => true end.
Lemma settled_inb_sound t n : settled_inb t n = true -> settled_in t n.
Proof.
  unfold settled_inb. intros H nd c Hn Hc Hs. rewrite Hn, forallb_forall in H. unfold state_of in Hs. destruct (cm_children _ !! c) as [ch|] eqn:E; [|discriminate].
  apply elem_of_map_to_list, elem_of_list_In, H, negb_true_iff, bool_decide_eq_false_1 in E. apply E. split; [exact Hc|]. cbn. injection Hs as Hs. exact Hs.
Qed.
Lemma tidy_timelyb_sound t o : tidy_timelyb t o = true -> tidy_timely t o.
Proof.
  intros [H1 H2]%andb_true_iff. split; [by apply TreeTopProps.tidy_toldb_sound|]. destruct o as [n o| | | |]; try exact I; [destruct o; try exact I|]; by apply settled_inb_sound.
Qed.
Definition day : list top := [D [1; 1]; D [1; 1]; D [1; 1]; TOp [1; 1] (FChildInit 1 false); D [1; 1]; TOp [1; 1] (FChildInit 3 false); D [1; 1]; TInited [1] 1; D [1]; TInited [] 1; D [];
  TOp [] FInitialized; D []; TOp [] FStarted; TStarted [] 1; TStarted [1] 1; TOp [1; 1] (FChildStart 1); TOp [1; 1] (FChildStart 3)].
Example C82_day : Forall tsmooth_all day /\ guarded synced tidy_timely tinit (TreeUpProps.dawn ++ day) /\
  match run synced tinit (TreeUpProps.dawn ++ day) with Ok (t, _) => TreeUpProps.is_up AOperational t [] && is AOperational t [] 1 && is AOperational t [1] 1 && is AOperational t [1; 1] 1 && is AOperational t [1; 1] 3 | _ => false end = true.
Proof.
  split; [|split; [apply (guardedb_sound _ tidy_timelyb); [apply tidy_timelyb_sound|]; vm_compute; reflexivity|vm_compute; reflexivity]].
  assert (Ha : Forall tsmooth (take 16 day)) by (by repeat constructor).
  change day with (take 16 day ++ [TOp [1; 1] (FChildStart 1); TOp [1; 1] (FChildStart 3)]). apply Forall_app. split; [eapply Forall_impl; [exact Ha|]; intros o Ho; by left|].
  apply Forall_cons. split; [right; by exists [1; 1], 1|]. apply Forall_cons. split; [right; by exists [1; 1], 3|]. apply Forall_nil. exact I.
Qed.

Print Assumptions C82_all.
Print Assumptions C82_free_all.
Print Assumptions C82_init.
Print Assumptions C82_once.
Print Assumptions C82_free.
Print Assumptions C82_late.
Print Assumptions C82_created_late_refuted.
Print Assumptions C82_respawned_late_refuted.
Print Assumptions C82_silent.
Print Assumptions C82_told_early_refuted.
