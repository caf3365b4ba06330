(** C46: the initialization of an actor makes progress. *)
From stdpp Require Import base list gmap.
From Verif Require Import Base Prog ActorModel ActorSpec ActorMoves ActorReach ActorProps ActorSafeSpec ActorSafe ActorSafeRun ActorSafeProps ActorLiveSpec ActorLive.
Open Scope N_scope.

(** ** As long as the init request is not answered, somebody owes the actor something:
    an answer to a link, registration or discovery request, the release of a resource,
    or the confirmation of a subscription.
    Partial: it holds for the uses of [prudent] and [patient] only, see below. *)
Theorem C46_progress_partial : forall cfg ra unl ops s ev, prudent_cfg ra cfg ->
  guarded (astep cfg ra unl) (fun s o => prudent ra s o /\ patient s o) ainit ops -> ran cfg ra unl ops s ev ->
  x_st s = AInitializing -> x_ireq s = true -> unfailed ev ->
  (exists q, out s q /\ ~ exists c, q = QUnlink c) \/ (exists i, held s i <> 0) \/ x_trk s <> 0%nat.
Proof. intros *. apply progress. Qed.

Definition stuck (s : astore) : Prop := x_pend s = ∅ /\ x_late s = [] /\ x_res s = ∅ /\ x_trk s = 0%nat.
Lemma usesb_ok ra s o : bool_decide (prudent ra s o /\ patient s o) = true -> prudent ra s o /\ patient s o.
Proof. apply bool_decide_eq_true. Qed.
Ltac by_uses := apply (guardedb_sound _ (fun s o => bool_decide (prudent _ s o /\ patient s o)) _ (usesb_ok _)); vm_compute; reflexivity.
(** The whole life of an actor with links, names, resources and a tracked subscription
    follows the rules, and is initializing for most of the time. *)
Example C46_full : prudent_cfg 1 full /\ guarded (astep full 1 true) (fun s o => prudent 1 s o /\ patient s o) ainit life /\
  (exists s ev, ran full 1 true life s ev /\ x_st s = AShutDown).
Proof. split; [exact full_prudent|]. split; [by_uses|]. ran_ex. reflexivity. Qed.
Definition waiting_run : list aop := [OInitReq; OResp 1 RpOk].
Example C46_waits : prudent_cfg 1 regs /\ guarded (astep regs 1 true) (fun s o => prudent 1 s o /\ patient s o) ainit waiting_run /\
  (exists s ev, ran regs 1 true waiting_run s ev /\ x_st s = AInitializing /\ x_ireq s = true /\ unfailed ev).
Proof.
  split; [by_cfg|]. split; [by_uses|]. ran_ex. split; [reflexivity|]. split; [reflexivity|]. intros p Hp.
  repeat (apply elem_of_cons in Hp as [Hp|Hp]; [discriminate|]). by apply elem_of_nil in Hp.
Qed.

(** ** Without the rule on addresses: two names are found at one address, the second
    after the link for the first was answered.  No link is made for the second, since
    the map of aliases still has the address (registry.cpp:205-258 erases the task, not
    the entry), and the initialization waits for ever, with nothing pending. *)
Definition twice (p : plug) : list uact := match p with PRg => [UDiscover 8 false false; UDiscover 9 false false] | _ => [] end.
Theorem C46_stale_alias_refuted :
  let ops := [OInitReq; OResp 1 RpOk; OResp 2 (RpAddr 30); OResp 4 RpOk; OResp 3 (RpAddr 30)] in
  prudent_cfg 1 twice /\ guarded (astep twice 1 true) (prudent 1) ainit ops /\
  exists s ev, ran twice 1 true ops s ev /\ x_st s = AInitializing /\ x_ireq s = true /\ bool_decide (stuck s) = true /\ is_Some (x_dm s !! 8).
Proof. split; [by_cfg|]. split; [by_prudence|]. ran_ex. split; [reflexivity|]. split; [reflexivity|]. split; [vm_compute; reflexivity|]. vm_compute. by eexists. Qed.
(** Without the rule on tracked subscriptions. *)
Theorem C46_tracked_late_refuted :
  let ops := [OInitReq; OUser (ULink 20 false); OSubscribed; OUser UTrack; OResp 1 RpOk; OSubscribed] in
  prudent_cfg 1 tracks /\ guarded (astep tracks 1 true) (prudent 1) ainit ops /\
  exists s ev, ran tracks 1 true ops s ev /\ x_st s = AInitializing /\ x_ireq s = true /\ bool_decide (stuck s) = true.
Proof. split; [by_cfg|]. split; [by_prudence|]. ran_ex. split; [reflexivity|]. split; [reflexivity|]. vm_compute. reflexivity. Qed.

Print Assumptions C46_progress_partial.
Print Assumptions C46_stale_alias_refuted.
Print Assumptions C46_tracked_late_refuted.
