(** Properties of the thread backend's wake-up protocol: C15. *)
From stdpp Require Import base list gmap.
From Verif Require Import Base ThreadWakeModel ThreadWakeSpec ThreadWakeProofs.
Open Scope N_scope.

(** C15, the property itself: in every interleaving, when the loop sleeps without
    a pending notification and the root supervisor has an inbound message, some
    thread has not yet reached its notification. *)
Theorem C15_no_lost_wakeup : forall ops s e, run wstep winit ops = Ok (s, e) ->
  asleep s -> w_inb s 0 <> [] -> exists t, before_notify s t.
Proof. exact no_lost_wakeup. Qed.

(** The critical sections exclude each other. *)
Theorem C15_mutual_exclusion : forall ops s e o o', run wstep winit ops = Ok (s, e) ->
  in_critical s o -> in_critical s o' -> o = o'.
Proof. exact mutual_exclusion. Qed.

(** As soon as nobody is inside [enqueue], the loop alone (no time-out, no
    spurious wake-up) dispatches every inbound message. *)
Theorem C15_progress : forall ops s e, run wstep winit ops = Ok (s, e) ->
  w_enq s = ∅ -> w_pc s <> LEnd -> w_inb s 0 <> [] ->
  exists n s' e', run wstep s (replicate n (WLoop false)) = Ok (s', e') /\
    dispatched e' = w_queue s ++ w_inb s 0 /\ w_queue s' = [] /\ w_inb s' 0 = [].
Proof. exact progress. Qed.

(** Nothing is lost, duplicated or reordered between [enqueue] and [do_process]. *)
Theorem C15_order : forall ops s e, run wstep winit ops = Ok (s, e) ->
  dispatched e ++ w_queue s ++ w_inb s 0 = pushed 0 winit ops.
Proof. exact order. Qed.

(** The limit: a supervisor other than the root has its own inbound queue, which
    the loop never drains.  Everything enqueued to it stays there. *)
Theorem C15_child_stuck : forall ops s e sup, sup <> 0 -> run wstep winit ops = Ok (s, e) ->
  w_inb s sup = pushed sup winit ops.
Proof. exact child_stuck. Qed.

(** So the wake-up property fails for messages to actors of a child supervisor. *)
Theorem C15_child_refuted : exists ops s e, run wstep winit ops = Ok (s, e) /\
  asleep s /\ w_inb s 1 <> [] /\ w_enq s = ∅.
Proof.
  exists ([WPush 7 1 42; WLock 7; WNotify 7; WUnlock 7] ++ replicate 7 (WLoop false)).
  eexists _, _. split; [vm_compute; reflexivity|]. split; [done|]. split; [done|]. apply map_to_list_empty_iff. reflexivity.
Qed.

(** Non-vacuity: a push between the predicate and the wait; the thread blocks on
    the mutex, and its notification wakes the loop. *)
Example C15_example : exists s e,
  run wstep winit (replicate 6 (WLoop false) ++ [WPush 7 0 42; WLock 7; WLoop false]) = Ok (s, e) /\
  asleep s /\ w_inb s 0 = [42] /\ before_notify s 7 /\
  exists s' e', run wstep s ([WLoop false; WLock 7; WNotify 7; WUnlock 7] ++ replicate 12 (WLoop false)) = Ok (s', e') /\
    e' = [WDispatched 42] /\ w_enq s' = ∅.
Proof.
  eexists _, _. split; [vm_compute; reflexivity|]. split; [done|]. split; [done|]. split; [by left|].
  eexists _, _. split; [vm_compute; reflexivity|]. split; [done|]. apply map_to_list_empty_iff. reflexivity.
Qed.

Print Assumptions C15_no_lost_wakeup.
Print Assumptions C15_mutual_exclusion.
Print Assumptions C15_progress.
Print Assumptions C15_order.
Print Assumptions C15_child_stuck.
Print Assumptions C15_child_refuted.
