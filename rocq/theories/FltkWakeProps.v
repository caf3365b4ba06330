(** Properties of the FLTK backend's inbound protocol: C16. *)
From stdpp Require Import base list gmap.
From Verif Require Import Base FltkWakeModel FltkWakeSpec FltkWakeProofs.
Open Scope Z_scope.

(** C16: with one context, when nobody is inside [enqueue] and no callback is
    pending or running, no message is left in the inbound queue. *)
Theorem C16_not_stuck : forall ops s e, single ops -> run kstep kinit ops = Ok (s, e) ->
  idle s -> k_enq s = ∅ -> k_inb s 0 = [].
Proof. exact not_stuck. Qed.

(** From any reachable state without running enqueuers the FLTK thread alone
    becomes idle after dispatching everything. *)
Theorem C16_progress : forall ops s e, single ops -> run kstep kinit ops = Ok (s, e) -> k_enq s = ∅ ->
  exists l s' e', run kstep s l = Ok (s', e') /\ Forall (fun o => o = KStart \/ o = KStep) l /\ idle s' /\
    kdispatched 0 e' = k_queue s 0 ++ k_inb s 0.
Proof. exact kprogress. Qed.

(** Nothing is lost, duplicated or reordered (for any number of contexts). *)
Theorem C16_order : forall ops c s e, run kstep kinit ops = Ok (s, e) ->
  kdispatched c e ++ k_queue s c ++ k_inb s c = kpushed c kinit ops.
Proof. exact korder. Qed.

(** The limit: the counter is static, so two contexts disturb each other.  There
    is a schedule after which a message of the second context is stuck and no
    later message of any context is ever dispatched. *)
Theorem C16_two_contexts_refuted : exists ops s e, run kstep kinit ops = Ok (s, e) /\
  idle s /\ k_enq s = ∅ /\ k_inb s 1 <> [] /\
  forall ops' s' e', run kstep s ops' = Ok (s', e') -> e' = [].
Proof.
  exists [KPush 1 0 10; KAdd 1; KPush 2 1 20; KAdd 2; KStart; KStep; KStep; KStep; KStep; KStep].
  eexists _, _. split; [vm_compute; reflexivity|]. split; [done|]. split; [apply map_to_list_empty_iff; reflexivity|]. split; [done|].
  intros ops' s' e' H. by apply dead_stays in H as (_ & _ & ?).
Qed.

(** Non-vacuity: two threads; the callback sees the second message before it is
    counted, the counter becomes negative, and nothing is lost. *)
Example C16_example : exists s e,
  run kstep kinit [KPush 1 0 10; KAdd 1; KStart; KPush 2 0 20; KStep; KStep; KStep; KStep; KStep; KStep] = Ok (s, e) /\
  idle s /\ k_counter s = -1 /\ e = [KDispatched 0 10; KDispatched 0 20] /\
  exists s' e', run kstep s [KPush 3 0 30; KAdd 3; KAdd 2; KStart; KStep; KStep; KStep; KStep] = Ok (s', e') /\
    e' = [KDispatched 0 30] /\ idle s' /\ k_enq s' = ∅.
Proof.
  eexists _, _. split; [vm_compute; reflexivity|]. split; [done|]. split; [done|]. split; [done|].
  eexists _, _. split; [vm_compute; reflexivity|]. split; [done|]. split; [done|]. apply map_to_list_empty_iff; reflexivity.
Qed.

Print Assumptions C16_not_stuck.
Print Assumptions C16_progress.
Print Assumptions C16_order.
Print Assumptions C16_two_contexts_refuted.
