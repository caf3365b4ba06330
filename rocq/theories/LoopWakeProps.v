(** Properties of the inbound protocols of asio (C47) and ev (C48). *)
From stdpp Require Import base list gmap.
From Verif Require Import Base Prog LoopWakeModel LoopWakeSpec LoopWakeProofs.
Open Scope N_scope.

(** C47 (asio): when nobody is inside [enqueue] and the strand has nothing to do, no
    message is left in the inbound queue or in the queue. *)
Theorem C47_not_stuck : forall ops s e, run gstep ginit ops = Ok (s, e) -> gidle s -> g_mid s = ∅ ->
  c_inb (g_core s) = [] /\ c_queue (g_core s) = [].
Proof. exact g_not_stuck. Qed.

(** From any reachable state without running enqueuers the strand alone becomes idle
    after dispatching everything. *)
Theorem C47_progress : forall ops s e, run gstep ginit ops = Ok (s, e) -> g_mid s = ∅ ->
  exists l s' e', run gstep s l = Ok (s', e') /\ Forall gown l /\ gidle s' /\
    dispatched e' = queued (c_queue (g_core s)) ++ c_inb (g_core s).
Proof. exact g_progress. Qed.

(** Nothing is lost, duplicated or reordered. *)
Theorem C47_order : forall ops s e, run gstep ginit ops = Ok (s, e) ->
  dispatched e ++ queued (c_queue (g_core s)) ++ c_inb (g_core s) = gpushed ginit ops.
Proof. exact g_order. Qed.

(** Two threads; the second message is pushed while the first is being dispatched, and
    is taken by the task its [enqueue] defers afterwards. *)
Example C47_example : exists s e,
  run gstep ginit [GPush 1 10; GDefer 1; GStart; GStep false; GStep false; GPush 2 20; GLocal 5; GStep false; GStep false; GStep false] = Ok (s, e) /\
  gidle s /\ g_mid s <> ∅ /\ c_inb (g_core s) = [20] /\ e = [Dispatched (Ext 10); Dispatched (Loc 5)] /\
  exists s' e', run gstep s [GDefer 2; GStart; GStep false; GStep false; GStep false; GStep false] = Ok (s', e') /\
    e' = [Dispatched (Ext 20)] /\ gidle s' /\ g_mid s' = ∅.
Proof.
  eexists _, _. split; [vm_compute; reflexivity|]. split; [done|]. split; [apply (bool_decide_unpack _); vm_compute; exact I|]. split; [done|]. split; [done|].
  eexists _, _. split; [vm_compute; reflexivity|]. split; [done|]. split; [done|]. apply (bool_decide_unpack _); vm_compute; exact I.
Qed.

(** C48 (ev), as long as messages are enqueued to supervisors whose watcher is active:
    when nobody is inside [enqueue] and the loop has nothing to do, no message is left.
    What is missing: see [C48_refuted]. *)
Theorem C48_not_stuck_partial : forall ops s e, guarded vstep to_active vinit ops -> run vstep vinit ops = Ok (s, e) ->
  vidle s -> v_mid s = ∅ -> c_inb (v_core s) = [] /\ c_queue (v_core s) = [].
Proof. exact v_not_stuck. Qed.

Theorem C48_progress_partial : forall ops s e, guarded vstep to_active vinit ops -> run vstep vinit ops = Ok (s, e) -> v_mid s = ∅ ->
  exists l s' e', run vstep s l = Ok (s', e') /\ Forall vown l /\ vidle s' /\
    dispatched e' = queued (c_queue (v_core s)) ++ c_inb (v_core s).
Proof. exact v_progress. Qed.

(** Nothing is lost, duplicated or reordered (without the restriction). *)
Theorem C48_order : forall ops s e, run vstep vinit ops = Ok (s, e) ->
  dispatched e ++ queued (c_queue (v_core s)) ++ c_inb (v_core s) = vpushed vinit ops.
Proof. exact v_order. Qed.

(** A message for an address made by a child supervisor (2) which shut down meanwhile,
    [shutdown_finish], stays in the inbound queue of the living leader (1), although the
    loop is idle and nobody is inside [enqueue]; and it stays for as long as nobody else
    enqueues, starts or creates supervisors, whatever timers fire. *)
Theorem C48_refuted : exists ops s e, run vstep vinit ops = Ok (s, e) /\
  vidle s /\ v_mid s = ∅ /\ 1 ∈ v_active s /\ c_inb (v_core s) = [99] /\
  forall l s' e', Forall (fun o => vown o \/ (exists m, o = VLocal m) \/ exists ms, o = VTimer ms) l ->
    run vstep s l = Ok (s', e') -> c_inb (v_core s') = [99].
Proof.
  exists [VInit 1; VInit 2; VStart 1; VWake 1; VStep false; VTimer [7]; VStop 2; VStep false; VStep false; VPush 1 2 99; VSend 1].
  eexists _, _. split; [vm_compute; reflexivity|]. split; [split; [apply (bool_decide_unpack _); vm_compute; exact I|done]|].
  split; [apply map_to_list_empty_iff; reflexivity|]. split; [apply (bool_decide_unpack _); vm_compute; exact I|]. split; [done|].
  intros l s' e' Hl H. eapply v_lost; [| | |exact Hl|exact H].
  - cbn. done.
  - apply (bool_decide_unpack _); vm_compute; exact I.
  - by left.
Qed.

(** Non-vacuity: two threads send to two supervisors; one wake-up takes both messages. *)
Example C48_example : exists s e,
  guarded vstep to_active vinit [VInit 1; VInit 2; VPush 1 1 10; VPush 2 2 20; VSend 1; VWake 1; VStep false; VStep false; VStep false; VStep false; VLocal 3; VStep false; VStep false; VStep false] /\
  run vstep vinit [VInit 1; VInit 2; VPush 1 1 10; VPush 2 2 20; VSend 1; VWake 1; VStep false; VStep false; VStep false; VStep false; VLocal 3; VStep false; VStep false; VStep false] = Ok (s, e) /\
  vidle s /\ e = [Dispatched (Ext 10); Dispatched (Ext 20); Dispatched (Loc 3)].
Proof.
  eexists _, _. split.
  - apply (guardedb_sound vstep (fun s o => bool_decide (to_active s o)) to_active (fun s o => bool_decide_eq_true_1 _)). vm_compute. reflexivity.
  - split; [vm_compute; reflexivity|]. split; [split; [apply (bool_decide_unpack _); vm_compute; exact I|done]|done].
Qed.

Print Assumptions C47_not_stuck.
Print Assumptions C47_progress.
Print Assumptions C47_order.
Print Assumptions C48_not_stuck_partial.
Print Assumptions C48_progress_partial.
Print Assumptions C48_order.
Print Assumptions C48_refuted.
