(** C42: the assertions of the plugins of an actor. *)
From stdpp Require Import base list gmap.
From Verif Require Import Base Prog ActorModel ActorSpec ActorMoves ActorReach ActorProps ActorSafeSpec ActorSafe ActorSafeRun.
Open Scope N_scope.

(** ** Prudent use breaks no assertion and dereferences nothing which is gone.
    Partial: without the rules of [prudent] and [prudent_cfg] it does not hold, see
    below. *)
Theorem C42_prudent_partial : forall cfg ra unl ops, prudent_cfg ra cfg -> guarded (astep cfg ra unl) (prudent ra) ainit ops ->
  exists s ev, ran cfg ra unl ops s ev.
Proof. intros * H. by apply prudent_runs. Qed.

Lemma prudentb_ok ra s o : bool_decide (prudent ra s o) = true -> prudent ra s o.
Proof. apply bool_decide_eq_true. Qed.
Ltac by_prudence := apply (guardedb_sound _ (fun s o => bool_decide (prudent _ s o)) _ (prudentb_ok _)); vm_compute; reflexivity.
Global Instance link_act_dec u : Decision (link_act u).
Proof. destruct u; cbn; apply _. Defined.
Global Instance release_act_dec u : Decision (release_act u).
Proof. destruct u; cbn; apply _. Defined.
Global Instance prudent_cfg_dec ra cfg : Decision (prudent_cfg ra cfg).
Proof. unfold prudent_cfg. apply _. Defined.
Ltac by_cfg := apply (bool_decide_unpack _); vm_compute; exact I.
(** Links, names, resources and tracked subscriptions, up to the end of the life. *)
Lemma full_prudent : prudent_cfg 1 full.
Proof. by_cfg. Qed.
Example C42_full : prudent_cfg 1 full /\ guarded (astep full 1 true) (prudent 1) ainit life /\ (exists s ev, ran full 1 true life s ev /\ x_st s = AShutDown).
Proof. split; [exact full_prudent|]. split; [by_prudence|]. ran_ex. reflexivity. Qed.
(** Clients, which are asked to unlink; one answers, one was faster. *)
Example C42_serve : prudent_cfg 1 nothing /\ guarded (astep nothing 1 true) (prudent 1) ainit serve /\ (exists s ev, ran nothing 1 true serve s ev /\ x_st s = AShutDown).
Proof. split; [by_cfg|]. split; [by_prudence|]. ran_ex. reflexivity. Qed.
(** Timeouts, a failing link, a server which asks to unlink, a link made by a message handler. *)
Example C42_troubles : prudent_cfg 1 links /\
  guarded (astep links 1 true) (prudent 1) ainit [OInitReq; OTimeout 1; OUser (ULink 21 false); OLate; OResp 2 RpOk; OLinkReq 7 1 false; OUnlinkReq 21; OShutReq; OTimeout 3; OLate; OUnsubscribed].
Proof. split; [by_cfg|by_prudence]. Qed.

(** ** Every rule is needed: the only imprudent step of the run is [o]. *)
Global Instance uact_eq_dec : EqDecision uact.
Proof. solve_decision. Defined.
Global Instance reply_eq_dec : EqDecision reply.
Proof. solve_decision. Defined.
Global Instance aop_eq_dec : EqDecision aop.
Proof. solve_decision. Defined.
Definition lapse (cfg : plug -> list uact) (unl : bool) (ops : list aop) (o : aop) : Prop :=
  prudent_cfg 1 cfg /\ guarded (astep cfg 1 unl) (fun s x => prudent 1 s x \/ x = o) ainit ops.
Definition breaks (cfg : plug -> list uact) (unl : bool) (ops : list aop) : Prop := run (astep cfg 1 unl) ainit ops = AssertFail.
Definition crashes (cfg : plug -> list uact) (unl : bool) (ops : list aop) : Prop := run (astep cfg 1 unl) ainit ops = Crash.
Lemma lapseb_ok o s x : bool_decide (prudent 1 s x \/ x = o) = true -> prudent 1 s x \/ x = o.
Proof. apply bool_decide_eq_true. Qed.
Ltac by_lapse := split; [split; [by_cfg|]; apply (guardedb_sound _ (fun s x => bool_decide (prudent _ s x \/ x = _)) _ (lapseb_ok _)); vm_compute; reflexivity|vm_compute; reflexivity].

Definition seeks (d : bool) (p : plug) : list uact := match p with PRg => [UDiscover 9 d false] | _ => [] end.
Definition reg_disc (p : plug) : list uact := match p with PRg => [URegister 5; UDiscover 9 false false] | _ => [] end.
Definition both (p : plug) : list uact := match p with PLc => [ULink 30 false] | PRg => [UDiscover 9 false false] | _ => [] end.
Definition link_res (p : plug) : list uact := match p with PLc => [UAcquire 3; ULink 20 false] | _ => [] end.
Definition tracks (p : plug) : list uact := match p with PSt => [UTrack] | _ => [] end.
Definition link_reg (p : plug) : list uact := match p with PLc => [ULink 20 false] | PRg => [URegister 5] | _ => [] end.

(** The answer of the registry comes when the actor already shuts down
    (registry.cpp:88, register_map was cleared; an unlinking client delays the
    end of the shutdown). *)
Theorem C42_registered_after_shutdown_refuted :
  let ops := [OInitReq; OResp 1 RpOk; OLinkReq 7 1 false; OShutReq; OResp 2 RpOk] in lapse regs true ops (OResp 2 RpOk) /\ breaks regs true ops.
Proof. by_lapse. Qed.
(** The answer of the registry comes after the init request was answered with the
    failure of a link (registry.cpp:108). *)
Theorem C42_registered_after_failure_refuted :
  let ops := [OInitReq; OResp 1 RpOk; OResp 3 (RpAddr 30); OResp 4 RpErr; OResp 2 RpOk] in lapse reg_disc true ops (OResp 2 RpOk) /\ breaks reg_disc true ops.
Proof. by_lapse. Qed.
(** The link to a discovered server is answered during the shutdown: the callback
    uses a task which was erased (registry.cpp:214-223). *)
Theorem C42_task_linked_after_shutdown_refuted :
  let ops := [OInitReq; OResp 1 RpOk; OResp 2 (RpAddr 30); OLinkReq 7 1 false; OShutReq; OResp 3 RpOk] in lapse (seeks false) true ops (OResp 3 RpOk) /\ crashes (seeks false) true ops.
Proof. by_lapse. Qed.
(** A delayed discovery was cancelled; the next poll of the shutdown erases the task
    (registry.cpp:272-282), and then the answer to the cancelled request arrives. *)
Theorem C42_cancelled_refuted :
  let ops := [OInitReq; OResp 1 RpOk; OLinkReq 7 1 false; OLinkReq 8 2 false; OShutReq; OUnlinkNotify 7; OResp 2 RpErr] in lapse (seeks true) true ops (OResp 2 RpErr) /\ breaks (seeks true) true ops.
Proof. by_lapse. Qed.
(** The unlink request timed out, and then the notification of the client arrives
    (link_server.cpp:74, actor_base.cpp:259). *)
Theorem C42_notified_after_timeout_refuted :
  let ops := [OInitReq; OLinkReq 7 1 false; OShutReq; OTimeout 1; OUnlinkNotify 7] in lapse nothing true ops (OUnlinkNotify 7) /\ breaks nothing true ops.
Proof. by_lapse. Qed.
(** A link request timed out; before that is delivered, the actor shuts down
    (link_client.cpp:157, supervisor.cpp:142). *)
Theorem C42_shutdown_after_timeout_refuted :
  let ops := [OInitReq; OTimeout 1; OShutReq] in lapse links true ops OShutReq /\ breaks links true ops.
Proof. by_lapse. Qed.
(** A link request times out during the shutdown. *)
Theorem C42_timeout_in_shutdown_refuted :
  let ops := [OInitReq; OLinkReq 7 1 false; OShutReq; OTimeout 1; OUnlinkNotify 7] in lapse links true ops (OTimeout 1) /\ breaks links true ops.
Proof. by_lapse. Qed.
(** A name is found at an address which is linked anyway (link_client.cpp:51). *)
Theorem C42_found_twice_refuted :
  let ops := [OInitReq; OResp 1 RpOk; OResp 2 RpOk; OResp 3 (RpAddr 30)] in lapse both true ops (OResp 3 (RpAddr 30)) /\ breaks both true ops.
Proof. by_lapse. Qed.
(** A resource is released after the init request was answered with the failure of
    a link (actor_base.cpp:150). *)
Theorem C42_released_after_failure_refuted :
  let ops := [OInitReq; OResp 1 RpErr; OUser (URelease 3)] in lapse link_res true ops (OUser (URelease 3)) /\ breaks link_res true ops.
Proof. by_lapse. Qed.
(** A subscription is confirmed after that. *)
Theorem C42_subscribed_after_failure_refuted :
  let ops := [OInitReq; OUser (ULink 20 false); OResp 1 RpErr; OSubscribed] in lapse tracks true ops OSubscribed /\ breaks tracks true ops.
Proof. by_lapse. Qed.
(** What is not held is released (resources.cpp:70). *)
Theorem C42_not_held_refuted :
  let ops := [OInitReq; OUser (URelease 3)] in lapse nothing true ops (OUser (URelease 3)) /\ breaks nothing true ops.
Proof. by_lapse. Qed.
(** A server is linked twice; linked by a message handler, before the init request came, and then by
    configure(); the registry is linked by a message handler; a name is registered
    after the registry plugin has linked the registry. *)
Theorem C42_linked_twice_refuted :
  let ops := [OInitReq; OUser (ULink 20 false)] in lapse links true ops (OUser (ULink 20 false)) /\ breaks links true ops.
Proof. by_lapse. Qed.
Theorem C42_linked_early_refuted :
  let ops := [OUser (ULink 20 false); OInitReq] in lapse links true ops (OUser (ULink 20 false)) /\ breaks links true ops.
Proof. by_lapse. Qed.
Theorem C42_registry_linked_refuted :
  let ops := [OInitReq; OUser (ULink 1 false); OResp 1 RpOk; OResp 2 RpOk] in lapse link_reg true ops (OUser (ULink 1 false)) /\ breaks link_reg true ops.
Proof. by_lapse. Qed.
Theorem C42_registered_late_refuted :
  let ops := [OInitReq; OResp 1 RpOk; OUser (URegister 7)] in lapse regs true ops (OUser (URegister 7)) /\ breaks regs true ops.
Proof. by_lapse. Qed.
(** unlink_queue is never cleared: a server which is linked again is forgotten while
    the request is pending (link_client.cpp:92-113). *)
Theorem C42_linked_again_refuted :
  let ops := [OInitReq; OStart; OUser (ULink 20 false); OResp 1 RpOk; OLinkReq 7 1 false; OUnlinkReq 20; OUnlinkNotify 7; OUser (ULink 21 false); OResp 2 RpOk; OUnlinkReq 21;
    OUser (ULink 20 false); OUser (ULink 22 false); OResp 4 RpOk; OUnlinkReq 22; OResp 3 RpOk] in
  lapse nothing false ops (OUser (ULink 20 false)) /\ breaks nothing false ops.
Proof. by_lapse. Qed.
(** The answer to a link request comes during the shutdown of an actor which was
    not initialized (link_client.cpp:86, actor_base.cpp:149). *)
Theorem C42_linked_after_shutdown_refuted :
  let ops := [OInitReq; OLinkReq 7 1 false; OShutReq; OResp 1 RpOk] in lapse links true ops (OResp 1 RpOk) /\ breaks links true ops.
Proof. by_lapse. Qed.
(** A server asks to unlink before it has answered the link request. *)
Theorem C42_unlinked_before_answer_refuted :
  let ops := [OInitReq; OUnlinkReq 20; OResp 1 RpOk] in lapse links true ops (OUnlinkReq 20) /\ breaks links true ops.
Proof. by_lapse. Qed.

Print Assumptions C42_prudent_partial.
Print Assumptions C42_registered_after_shutdown_refuted.
Print Assumptions C42_registered_after_failure_refuted.
Print Assumptions C42_task_linked_after_shutdown_refuted.
Print Assumptions C42_cancelled_refuted.
Print Assumptions C42_notified_after_timeout_refuted.
Print Assumptions C42_shutdown_after_timeout_refuted.
Print Assumptions C42_timeout_in_shutdown_refuted.
Print Assumptions C42_found_twice_refuted.
Print Assumptions C42_released_after_failure_refuted.
Print Assumptions C42_subscribed_after_failure_refuted.
Print Assumptions C42_not_held_refuted.
Print Assumptions C42_linked_twice_refuted.
Print Assumptions C42_linked_early_refuted.
Print Assumptions C42_registry_linked_refuted.
Print Assumptions C42_registered_late_refuted.
Print Assumptions C42_linked_again_refuted.
Print Assumptions C42_linked_after_shutdown_refuted.
Print Assumptions C42_unlinked_before_answer_refuted.
