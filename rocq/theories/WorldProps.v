(** C62: a tree of supervisors whose other children are actors which link to each other. *)
From stdpp Require Import base list gmap.
From Verif Require Import Base Prog StateModel ChildMgrModel ChildMgrSpec FamilyModel FamilySpec ActorModel ActorSpec ActorSafeSpec NetModel NetSpec SystemModel SystemSpec TreeModel TreeSpec WorldModel WorldSpec.
From Verif Require FamilyProps NetProps SystemProps TreeProps WorldInv WorldProofs.
Open Scope N_scope.

Section reached.
Context (pol : list N -> spolicy) (sync : list N -> bool) (sup_at : list N -> N -> bool) (cfg : N -> plug -> list uact) (ra : N) (unl : N -> bool).
(** The world [z] is reached under the rules; [ev] is what the actors have done. *)
Definition zreached (z : world) (ev : list (N * aev)) : Prop :=
  exists ops, guarded (zstep pol sync sup_at cfg ra unl) (zrule pol sync sup_at cfg ra unl) zinit ops /\ run (zstep pol sync sup_at cfg ra unl) zinit ops = Ok (z, ev).
End reached.
Lemma zreached_inv pol sync sup_at cfg ra unl z ev : (forall n, prudent_cfg ra (cfg n)) -> zreached pol sync sup_at cfg ra unl z ev -> WorldInv.zinv pol sync sup_at cfg ra unl z ev.
Proof. intros HC (ops & Hg & Hr). by eapply WorldProofs.world_reach. Qed.

(** ** No assertion fails anywhere: neither in a supervisor nor in an actor. *)
Theorem C62_safe : forall pol sync sup_at cfg ra unl ops, (forall n, prudent_cfg ra (cfg n)) ->
  guarded (zstep pol sync sup_at cfg ra unl) (zrule pol sync sup_at cfg ra unl) zinit ops -> exists z ev, run (zstep pol sync sup_at cfg ra unl) zinit ops = Ok (z, ev).
Proof. intros * HC Hg. destruct (WorldProofs.world_safe pol sync sup_at cfg ra unl HC ops Hg) as (z & ev & H & _). eauto. Qed.

(** ** A world is a tree of C56 and a net of C57: what was proved of these holds. *)
Theorem C62_parts : forall pol sync sup_at cfg ra unl z ev, (forall n, prudent_cfg ra (cfg n)) -> zreached pol sync sup_at cfg ra unl z ev ->
  (exists tops tev, guarded (tstep pol sync) tidy tinit tops /\ run (tstep pol sync) tinit tops = Ok (z_t z, tev)) /\
  (exists nops, guarded (NetModel.nstep cfg ra unl) (nrule cfg ra unl) ninit nops /\ run (NetModel.nstep cfg ra unl) ninit nops = Ok (z_w z, ev)).
Proof. intros * HC HR. by destruct (zreached_inv _ _ _ _ _ _ _ _ HC HR) as [H1 H2 _]. Qed.

(** ** Every child is in its place: a child which is to be a supervisor is a node of the tree,
    every other child is an actor of the net, and there are no further actors. *)
Theorem C62_places : forall pol sync sup_at cfg ra unl z ev, (forall n, prudent_cfg ra (cfg n)) -> zreached pol sync sup_at cfg ra unl z ev ->
  (forall n nd c, z_t z !! n = Some nd -> ECreated c ∈ n_ev nd -> is_Some (z_t z !! (c :: n)) <-> sup_at n c = true) /\
  (forall k, is_Some (w_act (z_w z) !! k) <-> exists n c, k = who n c /\ actor_at sup_at (z_t z) n c).
Proof.
  intros * HC HR. pose proof (zreached_inv _ _ _ _ _ _ _ _ HC HR) as HI. split.
  - intros n nd c. apply (WorldProofs.world_sups pol sync sup_at cfg ra unl z ev HI).
  - apply (WorldProofs.world_born pol sync sup_at cfg ra unl z ev HI).
Qed.
Theorem C62_who : forall n c n' c', who n c = who n' c' -> n = n' /\ c = c'.
Proof. exact WorldInv.who_inj. Qed.
(** What a supervisor takes for the state of a child is the state of the actor. *)
Theorem C62_agree : forall pol sync sup_at cfg ra unl z ev n nd c, (forall n, prudent_cfg ra (cfg n)) -> zreached pol sync sup_at cfg ra unl z ev ->
  sup_at n c = false -> z_t z !! n = Some nd -> ECreated c ∈ n_ev nd -> FamilySpec.state_of (n_fam nd) c = Some (status (z_w z) (who n c)).
Proof. intros * HC HR Hs Hn Hc. by apply (WorldProofs.world_agree pol sync sup_at cfg ra unl HC z ev (zreached_inv _ _ _ _ _ _ _ _ HC HR) n nd c). Qed.
Theorem C62_asked : forall pol sync sup_at cfg ra unl z ev n nd c, (forall n, prudent_cfg ra (cfg n)) -> zreached pol sync sup_at cfg ra unl z ev ->
  sup_at n c = false -> z_t z !! n = Some nd -> settled (n_fam nd) -> ECreated c ∈ n_ev nd ->
  EShutReq c ∈ n_ev nd <-> status (z_w z) (who n c) = AShuttingDown \/ status (z_w z) (who n c) = AShutDown.
Proof. intros * HC HR. by apply (WorldProofs.world_asked pol sync sup_at cfg ra unl HC z ev), zreached_inv. Qed.
Theorem C62_removed : forall pol sync sup_at cfg ra unl z ev n nd c, (forall n, prudent_cfg ra (cfg n)) -> zreached pol sync sup_at cfg ra unl z ev ->
  sup_at n c = false -> z_t z !! n = Some nd -> settled (n_fam nd) -> ECreated c ∈ n_ev nd -> removed c (n_ev nd) <-> status (z_w z) (who n c) = AShutDown.
Proof. intros * HC HR. by apply (WorldProofs.world_removed pol sync sup_at cfg ra unl HC z ev), zreached_inv. Qed.

(** ** When a supervisor agrees to end, every actor below it, however deep, is shut down, nobody
    is linked with it, and it is off the list of its supervisor. *)
Theorem C62_order : forall pol sync sup_at cfg ra unl z ev n nd l m c, (forall n, prudent_cfg ra (cfg n)) -> zreached pol sync sup_at cfg ra unl z ev ->
  z_t z !! n = Some nd -> EVoteShutdown true ∈ n_ev nd -> z_t z !! (l ++ n) = Some m -> ECreated c ∈ n_ev m -> sup_at (l ++ n) c = false ->
  status (z_w z) (who (l ++ n) c) = AShutDown /\ unlinked (z_w z) (who (l ++ n) c) /\ removed c (n_ev m).
Proof. intros * HC HR. by apply (WorldProofs.world_order pol sync sup_at cfg ra unl HC z ev (zreached_inv _ _ _ _ _ _ _ _ HC HR) n nd). Qed.

(** ** The end: the root shuts down, each supervisor which shuts down has asked all its
    children, nothing is under way, no actor owns a resource, the names are given back, and the
    links, also those between the actors of different supervisors, form no ring.  Then all
    actors of all supervisors are shut down and off the lists. *)
Theorem C62_ends : forall pol sync sup_at cfg ra unl z ev root, (forall n, prudent_cfg ra (cfg n)) -> zreached pol sync sup_at cfg ra unl z ev ->
  quiet (z_w z) -> z_t z !! [] = Some root -> sup_state root = AShuttingDown -> (forall n nd, z_t z !! n = Some nd -> sup_state nd = AShuttingDown -> asked_all nd) ->
  (forall k, status (z_w z) k = AShuttingDown -> (forall i, ~ owned i (trace (z_w z) k)) /\ names_back (trace (z_w z) k)) ->
  (exists h : N -> nat, forall c s p id, EvLink s p id ∈ trace (z_w z) c -> (h c < h s)%nat) ->
  forall n nd c, sup_at n c = false -> z_t z !! n = Some nd -> ECreated c ∈ n_ev nd ->
    status (z_w z) (who n c) = AShutDown /\ unlinked (z_w z) (who n c) /\ removed c (n_ev nd).
Proof. intros * HC HR. by apply (WorldProofs.world_ends pol sync sup_at cfg ra unl HC z ev (zreached_inv _ _ _ _ _ _ _ _ HC HR) root). Qed.
(** ... and as long as a supervisor has not agreed to end, there is one which does when it is
    asked again, unless it waits for a spawner: the tree never waits in vain. *)
Theorem C62_progress : forall pol sync sup_at cfg ra unl z ev root n0 nd0, (forall n, prudent_cfg ra (cfg n)) -> zreached pol sync sup_at cfg ra unl z ev ->
  quiet (z_w z) -> z_t z !! [] = Some root -> sup_state root = AShuttingDown -> (forall n nd, z_t z !! n = Some nd -> sup_state nd = AShuttingDown -> asked_all nd) ->
  (forall k, status (z_w z) k = AShuttingDown -> (forall i, ~ owned i (trace (z_w z) k)) /\ names_back (trace (z_w z) k)) ->
  (exists h : N -> nat, forall c s p id, EvLink s p id ∈ trace (z_w z) c -> (h c < h s)%nat) ->
  (forall n nd a i, z_t z !! n = Some nd -> cm_map (f_cm (n_fam nd)) !! a = Some i -> ci_actor i = None -> ci_active i = false) ->
  (forall n nd, z_t z !! n = Some nd -> n <> [] -> f_phase (n_fam nd) <> PWorking -> sup_state nd = AShutDown) ->
  z_t z !! n0 = Some nd0 -> f_phase (n_fam nd0) = PWorking ->
  exists n nd z' e nd', z_t z !! n = Some nd /\ f_phase (n_fam nd) = PWorking /\
    zstep pol sync sup_at cfg ra unl z (ZTree (TOp n FVote)) = Ok (z', e) /\ z_t z' !! n = Some nd' /\ EVoteShutdown true ∈ n_ev nd'.
Proof. intros * HC HR. by apply (WorldProofs.world_progress pol sync sup_at cfg ra unl HC z ev (zreached_inv _ _ _ _ _ _ _ _ HC HR) root n0 nd0). Qed.

(** ** Checking runs *)
(** The root has a child supervisor 1 and an actor 2; the supervisor [1] has an actor 1. *)
Definition sup (n : list N) (c : N) : bool := bool_decide (n = [] /\ c = 1).
Definition A : N := who [] 2.
Definition B : N := who [1] 1.
Section checks.
Context (l : list (N * N * bool)).
Notation zs := (zstep (fun _ => PShutdownFailed) (fun _ => false) sup (NetProps.links_of l) 0 NetProps.yes).
Notation zr := (zrule (fun _ => PShutdownFailed) (fun _ => false) sup (NetProps.links_of l) 0 NetProps.yes).
Definition reached_by : world -> list (N * aev) -> Prop := zreached (fun _ => PShutdownFailed) (fun _ => false) sup (NetProps.links_of l) 0 NetProps.yes.
Lemma ran_as ops (P : world -> bool) : guardedb zs (fun z o => bool_decide (zr z o)) zinit ops = true ->
  match run zs zinit ops with Ok (z, _) => P z | _ => false end = true -> exists z ev, reached_by z ev /\ P z = true.
Proof.
  intros Hg. destruct (run zs zinit ops) as [[z ev]| |] eqn:E; try done. intros H. exists z, ev. split; [|done]. exists ops. split; [|done].
  apply (guardedb_sound zs (fun z o => bool_decide (zr z o))); [|done]. intros ? ? ?. by eapply bool_decide_eq_true_1.
Qed.
Lemma world_quiet z ev : (forall n, prudent_cfg 0 (NetProps.links_of l n)) -> reached_by z ev -> NetProps.quietb (z_w z) = true -> quiet (z_w z).
Proof. intros HC HR. apply NetProps.quietb_ok. destruct (C62_parts _ _ _ _ _ _ _ _ HC HR) as [_ (nops & _ & Hr)]. by eapply NetProps.senders. Qed.
End checks.
Definition at_b (z : world) (n : list N) (P : node -> bool) : bool := match z_t z !! n with Some nd => P nd | None => false end.
Lemma at_b_ok z n P : at_b z n P = true -> exists nd, z_t z !! n = Some nd /\ P nd = true.
Proof. unfold at_b. destruct (z_t z !! n) as [nd|]; [|done]. eauto. Qed.
Definition allb (z : world) (P : node -> bool) : bool := forallb (fun x => P (snd x)) (map_to_list (z_t z)).
Lemma allb_ok z P : allb z P = true -> forall n nd, z_t z !! n = Some nd -> P nd = true.
Proof. unfold allb. rewrite forallb_forall. intros H n nd Hn. apply (H (n, nd)). apply elem_of_list_In. by apply elem_of_map_to_list. Qed.
Definition votedb (ev : list cevent) : bool := foldl (fun b x => match x with EVoteShutdown _ => true | ECreated _ => false | _ => b end) false ev.
Lemma votedb_ok ev : votedb ev = true -> exists ev1 b ev2, ev = ev1 ++ EVoteShutdown b :: ev2 /\ forall c, ECreated c ∉ ev2.
Proof.
  unfold votedb. induction ev as [|x ev IH] using rev_ind; [done|]. rewrite foldl_app. cbn. intros H.
  assert (HV : (exists b, x = EVoteShutdown b) \/ (foldl (fun b x => match x with EVoteShutdown _ => true | ECreated _ => false | _ => b end) false ev = true /\ forall c, x <> ECreated c)).
  { destruct x; try done; eauto. }
  destruct HV as [[b ->]|[H1 Hx]]; [exists ev, b, []; split; [done|]; intros c ?%elem_of_nil; done|]. destruct (IH H1) as (ev1 & b & ev2 & -> & Hno).
  exists ev1, b, (ev2 ++ [x]). split; [by rewrite <- app_assoc|]. intros c [?|?%elem_of_list_singleton]%elem_of_app; [by eapply Hno|]. by apply (Hx c).
Qed.
Definition askedb (nd : node) : bool := SystemProps.settledb (n_fam nd) && votedb (n_ev nd).
Lemma askedb_ok nd : askedb nd = true -> asked_all nd.
Proof. unfold askedb. rewrite andb_true_iff. intros [H1 H2]. right. split; [by apply SystemProps.settledb_ok|by apply votedb_ok]. Qed.

Definition D (n : list N) : zop := ZTree (TreeProps.D n).
Definition mk (n : list N) : list zop := [ZTree (TOp n (FCreate false false)); D n; D n].
Definition start : list zop := [D []] ++ mk [] ++ mk [] ++ mk [1].
Definition greet (c s : N) : list zop := [ZNet (NDeliver c s); ZNet (NDeliver s c)].
Definition boot : list zop :=
  [D [1]; ZTree (TInited [] 1); D []; D []; ZTree (TOp [] FInitialized); D []; ZTree (TOp [] FStarted); ZTree (TStarted [] 1); ZNet (NLocal A OStart); ZNet (NLocal B OStart); D []].
Definition stop : list zop := [ZTree (TOp [] (FShutdown 0)); D []; ZTree (TOp [] FVote); D []; D []; D []; ZTree (TOp [1] FVote); D [1]; D [1]; D [1]].
Definition leave (n : list N) : list zop := ZTree <$> [TOp n FVote; TOp n (FDeactivate true false); TreeProps.D n].

(** *** The actor of the lower supervisor is a client of the actor of the root. *)
Definition up : list (N * N * bool) := [(B, A, false)].
Lemma up_prudent : forall n, prudent_cfg 0 (NetProps.links_of up n).
Proof. NetProps.by_prudent_links. Qed.
Definition rank (n : N) : nat := if bool_decide (n = A) then 1 else 0.
Definition uplinks (w : net) : bool := forallb (fun c => forallb (fun x => match x with EvLink s _ _ => bool_decide (rank c < rank s)%nat | _ => true end) (trace w c)) (NetProps.actors w).
Lemma uplinks_ok w : uplinks w = true -> exists h : N -> nat, forall c s p id, EvLink s p id ∈ trace w c -> (h c < h s)%nat.
Proof.
  unfold uplinks. rewrite forallb_forall. intros H. exists rank. intros c s p id Hin.
  assert (Hc : c ∈ NetProps.actors w). { apply NetProps.actors_ok. unfold trace in Hin. destruct (w_act w !! c); [by eexists|by apply elem_of_nil in Hin]. }
  apply elem_of_list_In, H in Hc. rewrite forallb_forall in Hc. apply elem_of_list_In, Hc in Hin. by apply bool_decide_eq_true in Hin.
Qed.
Example C62_up : exists z ev, reached_by up z ev /\ quiet (z_w z) /\ linked_to A (trace (z_w z) B) /\ status (z_w z) A = AOperational /\ status (z_w z) B = AOperational /\
  exists r m, z_t z !! [] = Some r /\ z_t z !! [1] = Some m /\ sup_state r = AOperational /\ sup_state m = AOperational.
Proof.
  destruct (ran_as up (start ++ greet B A ++ boot) (fun z => NetProps.quietb (z_w z) && NetProps.linked_tob A (trace (z_w z) B) && bool_decide (status (z_w z) A = AOperational) && bool_decide (status (z_w z) B = AOperational) &&
    at_b z [] (fun nd => bool_decide (sup_state nd = AOperational)) && at_b z [1] (fun nd => bool_decide (sup_state nd = AOperational)))) as (z & ev & HR & H); [vm_compute; reflexivity..|].
  rewrite !andb_true_iff in H. destruct H as [[[[[H1 H2] H3%bool_decide_eq_true_1] H4%bool_decide_eq_true_1] (r & Hr & Hrs%bool_decide_eq_true_1)%at_b_ok] (m & Hm & Hms%bool_decide_eq_true_1)%at_b_ok].
  exists z, ev. split_and!; [done|by eapply world_quiet; [apply up_prudent|..]|by apply NetProps.linked_tob_ok|done|done|]. eauto 10.
Qed.
(** They are told to end; the hypotheses of C62_ends and C62_progress hold. *)
Definition fell : list zop := start ++ greet B A ++ boot ++ stop ++ [ZNet (NDeliver A B); ZNet (NDeliver B A); D [1]; D [1]; D []; D []].
Example C62_down : exists z ev root, reached_by up z ev /\ quiet (z_w z) /\ z_t z !! [] = Some root /\ sup_state root = AShuttingDown /\
  (forall n nd, z_t z !! n = Some nd -> sup_state nd = AShuttingDown -> asked_all nd) /\ (forall k, (forall i, ~ owned i (trace (z_w z) k)) /\ names_back (trace (z_w z) k)) /\
  (exists h : N -> nat, forall c s p id, EvLink s p id ∈ trace (z_w z) c -> (h c < h s)%nat) /\
  (forall n nd a i, z_t z !! n = Some nd -> cm_map (f_cm (n_fam nd)) !! a = Some i -> ci_actor i = None -> ci_active i = false) /\
  (forall n nd, z_t z !! n = Some nd -> f_phase (n_fam nd) = PWorking) /\
  status (z_w z) A = AShutDown /\ status (z_w z) B = AShutDown.
Proof.
  destruct (ran_as up fell (fun z => NetProps.quietb (z_w z) && NetProps.freeb (z_w z) && uplinks (z_w z) && bool_decide (status (z_w z) A = AShutDown) && bool_decide (status (z_w z) B = AShutDown) &&
    at_b z [] (fun nd => bool_decide (sup_state nd = AShuttingDown)) && allb z askedb && allb z (fun nd => bool_decide (f_phase (n_fam nd) = PWorking)) &&
    allb z (fun nd => bool_decide (map_Forall (fun _ i => ci_actor i = None -> ci_active i = false) (cm_map (f_cm (n_fam nd))))))) as (z & ev & HR & H); [vm_compute; reflexivity..|].
  rewrite !andb_true_iff in H. destruct H as [[[[[[[[H1 H2] H3] H4%bool_decide_eq_true_1] H5%bool_decide_eq_true_1] (r & Hr & Hrs%bool_decide_eq_true_1)%at_b_ok] H6] H7] H8].
  exists z, ev, r. split_and!; try done.
  - by eapply world_quiet; [apply up_prudent|..].
  - intros n nd Hn _. apply askedb_ok. by apply (allb_ok z askedb H6 n).
  - apply NetProps.freeb_ok in H2 as [Ha Hb]. intros k. split; [apply Ha|left; apply Hb].
  - by apply uplinks_ok.
  - intros n nd a i Hn Ha. pose proof (allb_ok z _ H8 n nd Hn) as Hm. apply bool_decide_eq_true_1 in Hm. by apply (Hm a i).
  - intros n nd Hn. pose proof (allb_ok z _ H7 n nd Hn) as Hm. by apply bool_decide_eq_true_1 in Hm.
Qed.
(** Then the lower supervisor ends, and the root agrees to end. *)
Example C62_root : exists z ev root m, reached_by up z ev /\ z_t z !! [] = Some root /\ z_t z !! [1] = Some m /\ EVoteShutdown true ∈ n_ev root /\ sup_state m = AShutDown /\
  ECreated 2 ∈ n_ev root /\ ECreated 1 ∈ n_ev m.
Proof.
  destruct (ran_as up (fell ++ leave [1] ++ [ZTree (TDone [] 1); D []; D []; ZTree (TOp [] FVote)]) (fun z => at_b z [] (fun nd => bool_decide (EVoteShutdown true ∈ n_ev nd /\ ECreated 2 ∈ n_ev nd)) &&
    at_b z [1] (fun nd => bool_decide (sup_state nd = AShutDown /\ ECreated 1 ∈ n_ev nd)))) as (z & ev & HR & H); [vm_compute; reflexivity..|].
  rewrite andb_true_iff in H. destruct H as [(r & Hr & [? ?]%bool_decide_eq_true_1)%at_b_ok (m & Hm & [? ?]%bool_decide_eq_true_1)%at_b_ok]. exists z, ev, r, m. by split_and!.
Qed.

(** *** The actor of the root is a client of the actor below the other supervisor.  Only this
    supervisor is told to end: its actor asks the client to unlink, the client calls do_shutdown
    because of that, and the root ends it.  Both are gone, and the root goes on. *)
Definition downl : list (N * N * bool) := [(A, B, false)].
Lemma downl_prudent : forall n, prudent_cfg 0 (NetProps.links_of downl n).
Proof. NetProps.by_prudent_links. Qed.
Definition one : list zop := start ++ greet A B ++ boot ++ [ZTree (TOp [] (FShutdown 1)); D []; D []; D []; ZTree (TOp [1] FVote); D [1]; D [1]; D [1]].
Definition cascade : list zop := one ++ [ZNet (NDeliver B A); D []; D []; D []; ZNet (NDeliver A B); D []; D []; D [1]; D [1]] ++ leave [1] ++ [ZTree (TDone [] 1); D []; D []].
Example C62_asks : exists z ev r m, reached_by downl z ev /\ z_t z !! [] = Some r /\ z_t z !! [1] = Some m /\ settled (n_fam r) /\ settled (n_fam m) /\
  sup_state m = AShuttingDown /\ status (z_w z) B = AShuttingDown /\ status (z_w z) A = AOperational /\ EShutReq 2 ∉ n_ev r.
Proof.
  destruct (ran_as downl one (fun z => at_b z [] (fun nd => SystemProps.settledb (n_fam nd) && bool_decide (EShutReq 2 ∉ n_ev nd)) && at_b z [1] (fun nd => SystemProps.settledb (n_fam nd) && bool_decide (sup_state nd = AShuttingDown)) &&
    bool_decide (status (z_w z) B = AShuttingDown) && bool_decide (status (z_w z) A = AOperational))) as (z & ev & HR & H); [vm_compute; reflexivity..|].
  rewrite !andb_true_iff in H. destruct H as [[[(r & Hr & H1)%at_b_ok (m & Hm & H2)%at_b_ok] H3%bool_decide_eq_true_1] H4%bool_decide_eq_true_1].
  rewrite andb_true_iff in H1, H2. destruct H1 as [H1%SystemProps.settledb_ok H1'%bool_decide_eq_true_1], H2 as [H2%SystemProps.settledb_ok H2'%bool_decide_eq_true_1]. exists z, ev, r, m. by split_and!.
Qed.
Example C62_cascade : exists z ev r m, reached_by downl z ev /\ z_t z !! [] = Some r /\ z_t z !! [1] = Some m /\
  sup_state r = AOperational /\ EShutReq 2 ∈ n_ev r /\ sup_state m = AShutDown /\ status (z_w z) A = AShutDown /\ status (z_w z) B = AShutDown.
Proof.
  destruct (ran_as downl cascade (fun z => at_b z [] (fun nd => bool_decide (sup_state nd = AOperational /\ EShutReq 2 ∈ n_ev nd)) && at_b z [1] (fun nd => bool_decide (sup_state nd = AShutDown)) &&
    bool_decide (status (z_w z) A = AShutDown) && bool_decide (status (z_w z) B = AShutDown))) as (z & ev & HR & H); [vm_compute; reflexivity..|].
  rewrite !andb_true_iff in H. destruct H as [[[(r & Hr & [? ?]%bool_decide_eq_true_1)%at_b_ok (m & Hm & ?%bool_decide_eq_true_1)%at_b_ok] H3%bool_decide_eq_true_1] H4%bool_decide_eq_true_1].
  exists z, ev, r, m. by split_and!.
Qed.

(** ** A ring of links across supervisors: the tree never ends. *)
Definition ring : list (N * N * bool) := [(A, B, false); (B, A, false)].
Lemma ring_prudent : forall n, prudent_cfg 0 (NetProps.links_of ring n).
Proof. NetProps.by_prudent_links. Qed.
Definition stuck : list zop := start ++ greet A B ++ greet B A ++ boot ++ stop ++ [ZNet (NDeliver A B); ZNet (NDeliver B A); ZNet (NDeliver A B); ZNet (NDeliver B A); D [1]; D [1]; D []; D []; D []].
Theorem C62_ring_refuted : exists z ev root, reached_by ring z ev /\ quiet (z_w z) /\ z_t z !! [] = Some root /\ sup_state root = AShuttingDown /\
  (forall n nd, z_t z !! n = Some nd -> sup_state nd = AShuttingDown /\ asked_all nd) /\ (forall k, (forall i, ~ owned i (trace (z_w z) k)) /\ names_back (trace (z_w z) k)) /\
  status (z_w z) A = AShuttingDown /\ status (z_w z) B = AShuttingDown /\
  forall n, n = [] \/ n = [1] -> exists z' nd', zstep (fun _ => PShutdownFailed) (fun _ => false) sup (NetProps.links_of ring) 0 NetProps.yes z (ZTree (TOp n FVote)) = Ok (z', []) /\
    z_t z' !! n = Some nd' /\ EVoteShutdown true ∉ n_ev nd'.
Proof.
  destruct (ran_as ring stuck (fun z => NetProps.quietb (z_w z) && NetProps.freeb (z_w z) && bool_decide (status (z_w z) A = AShuttingDown) && bool_decide (status (z_w z) B = AShuttingDown) &&
    at_b z [] (fun nd => true) && allb z (fun nd => bool_decide (sup_state nd = AShuttingDown)) && allb z askedb &&
    forallb (fun n => match zstep (fun _ => PShutdownFailed) (fun _ => false) sup (NetProps.links_of ring) 0 NetProps.yes z (ZTree (TOp n FVote)) with Ok (z', []) => at_b z' n (fun nd => bool_decide (EVoteShutdown true ∉ n_ev nd)) | _ => false end) [[]; [1]]))
    as (z & ev & HR & H); [vm_compute; reflexivity..|].
  rewrite !andb_true_iff in H. destruct H as [[[[[[[H1 H2] H3%bool_decide_eq_true_1] H4%bool_decide_eq_true_1] (r & Hr & _)%at_b_ok] H5] H6] H7].
  assert (HS : forall n nd, z_t z !! n = Some nd -> sup_state nd = AShuttingDown). { intros n nd Hn. pose proof (allb_ok z _ H5 n nd Hn) as Hm. by apply bool_decide_eq_true_1 in Hm. }
  exists z, ev, r. split_and!; try done.
  - by eapply world_quiet; [apply ring_prudent|..].
  - by apply (HS []).
  - intros n nd Hn. split; [by apply (HS n)|]. apply askedb_ok. by apply (allb_ok z askedb H6 n).
  - apply NetProps.freeb_ok in H2 as [Ha Hb]. intros k. split; [apply Ha|left; apply Hb].
  - intros n Hn. rewrite forallb_forall in H7. specialize (H7 n). cbn -[zstep] in H7. destruct (zstep _ _ _ _ _ _ z (ZTree (TOp n FVote))) as [[z' [|]]| |] eqn:E; try (by destruct Hn as [->| ->]; specialize (H7 ltac:(auto))).
    assert (Hx : at_b z' n (fun nd => bool_decide (EVoteShutdown true ∉ n_ev nd)) = true) by (apply H7; destruct Hn; auto). apply at_b_ok in Hx as (nd' & Hn' & Hv%bool_decide_eq_true_1). eauto.
Qed.

Print Assumptions C62_safe.
Print Assumptions C62_parts.
Print Assumptions C62_places.
Print Assumptions C62_who.
Print Assumptions C62_agree.
Print Assumptions C62_asked.
Print Assumptions C62_removed.
Print Assumptions C62_order.
Print Assumptions C62_ends.
Print Assumptions C62_progress.
Print Assumptions C62_ring_refuted.
