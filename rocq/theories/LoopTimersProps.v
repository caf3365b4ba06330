(** Timers of the asio, ev, wx and fltk backends: C49, C50, C51. *)
From stdpp Require Import base list gmap.
From Verif Require Import Base Prog LoopTimersModel LoopTimersSpec LoopTimersProofs.
Open Scope N_scope.

(** C49: disciplined use never fails the assertion, never throws out of
    do_cancel_timer and never erases twice. *)
Theorem C49_safe : forall b ops, guarded (lstep b) disciplined linit ops -> exists s ev, run (lstep b) linit ops = Ok (s, ev).
Proof. exact l_safe. Qed.

(** A started timer gets at most one callback, fired or cancelled, and none exactly
    while it is known and its callback is not running. *)
Theorem C49_once : forall b ops s ev id, guarded (lstep b) disciplined linit ops -> run (lstep b) linit ops = Ok (s, ev) -> Started id ∈ ev ->
  (callbacks id ev <= 1)%nat /\ (callbacks id ev = 0%nat <-> id ∈ l_sup s /\ id ∉ running s).
Proof. exact l_once. Qed.

(** In particular a cancelled timer does not fire, and a fired one is not cancelled. *)
Theorem C49_never_again : forall b ops s ev id e1 e2 x, guarded (lstep b) disciplined linit ops -> run (lstep b) linit ops = Ok (s, ev) ->
  ev = e1 ++ x :: e2 -> x = Fired id \/ x = Cancelled id -> Fired id ∉ e2 /\ Cancelled id ∉ e2.
Proof. exact l_never_again. Qed.

(** A timer without callback is still waited for (or, with asio, its completion is
    deferred to the strand), and when the loop is idle it can fire. *)
Theorem C49_waits : forall b ops s ev id, guarded (lstep b) disciplined linit ops -> run (lstep b) linit ops = Ok (s, ev) -> Started id ∈ ev ->
  callbacks id ev = 0%nat -> id ∈ l_armed s \/ b = Asio /\ id ∈ l_done s.
Proof. exact l_waits. Qed.
Theorem C49_fires : forall b ops s ev id, guarded (lstep b) disciplined linit ops -> run (lstep b) linit ops = Ok (s, ev) -> Started id ∈ ev ->
  callbacks id ev = 0%nat -> l_stack s = [] -> exists l s' e, run (lstep b) s l = Ok (s', e) /\ Forall loop_op l /\ Fired id ∈ e.
Proof. exact l_fires. Qed.

(** The rule is needed: with every backend a timer cancelled inside its own callback is
    called back twice, and then erased through a dangling iterator. *)
Theorem C49_self_cancel_refuted : forall b, exists ops s ev, run (lstep b) linit ops = Ok (s, ev) /\ callbacks 1 ev = 2%nat /\
  run (lstep b) linit (ops ++ [LReturn; LReturn]) = Crash.
Proof.
  intros b. exists [LStart; LExpire 1; LStrand; LCancel 1]. destruct b; (eexists _, _; split; [vm_compute; reflexivity|split; vm_compute; reflexivity]).
Qed.
(** do_cancel_timer of a timer which is over: asio throws out of a noexcept function,
    the others ignore it. *)
Theorem C49_unknown_timer_refuted : run (lstep Asio) linit [LDoCancel 1] = Crash.
Proof. vm_compute. reflexivity. Qed.

Definition ran_ok {S O E} (step : S -> O -> res (S * list E)) ok s ops (Q : S -> list E -> Prop) : Prop :=
  guarded step ok s ops /\ exists s' e, run step s ops = Ok (s', e) /\ Q s' e.
Ltac disc := apply (guardedb_sound _ (fun s o => bool_decide (disciplined s o)) disciplined (fun s o => bool_decide_eq_true_1 _)); vm_compute; reflexivity.
Ltac ins := apply (guardedb_sound _ (fun s o => bool_decide (inside s o)) inside (fun s o => bool_decide_eq_true_1 _)); vm_compute; reflexivity.

(** Non-vacuity: asio; the timer is cancelled while its completion waits in the strand. *)
Example C49_example_asio : ran_ok (lstep Asio) disciplined linit
  [LStart; LStart; LExpire 1; LProcess; LCancel 1; LReturn; LReturn; LStrand; LExpire 2; LStrand; LStart; LReturn; LReturn]
  (fun s e => e = [Started 1; Started 2; Cancelled 1; Fired 2; Started 3] /\ l_stack s = []).
Proof. split; [disc|]. eexists _, _. split; [vm_compute; reflexivity|done]. Qed.
(** A callback cancels another timer, whose callback starts one. *)
Example C49_example_ev : ran_ok (lstep Ev) disciplined linit
  [LStart; LStart; LExpire 1; LCancel 2; LStart; LReturn; LSend 5; LReturn; LDispatch; LReturn; LExpire 3; LReturn; LReturn]
  (fun s e => e = [Started 1; Started 2; Fired 1; Cancelled 2; Started 3; Sent 5; Handled 5; Fired 3] /\ l_stack s = []).
Proof. split; [disc|]. eexists _, _. split; [vm_compute; reflexivity|done]. Qed.

(** C50: the references to the supervisor taken by hand (ev, fltk) are exactly one for
    each known timer and one while the queue is processed after a fired one. *)
Theorem C50_references : forall b ops s ev, guarded (lstep b) disciplined linit ops -> run (lstep b) linit ops = Ok (s, ev) ->
  l_refs s = match b with Ev | Fltk => (Z.of_nat (size (l_sup s)) + Z.of_nat (own_frames s))%Z | Asio | Wx => 0%Z end.
Proof. intros b ops s ev Hg H. rewrite (l_refs_ok _ _ _ _ Hg H). by destruct b. Qed.
(** A timer cancelled inside its own callback releases once too often. *)
Theorem C50_self_cancel_refuted : exists ops s ev, run (lstep Ev) linit ops = Ok (s, ev) /\ callbacks 1 ev = 2%nat /\ l_stack s = [FFire 1] /\ l_sup s = ∅ /\ l_refs s = 0%Z.
Proof.
  exists [LStart; LExpire 1; LCancel 1; LReturn]. eexists _, _. split; [vm_compute; reflexivity|]. split; [vm_compute; reflexivity|]. split; [done|].
  split; [apply (bool_decide_unpack _); vm_compute; exact I|done].
Qed.
Example C50_example : ran_ok (lstep Fltk) disciplined linit [LStart; LStart; LStart; LExpire 2; LCancel 3; LReturn; LReturn] (fun s e => l_refs s = 1%Z /\ size (l_sup s) = 1%nat).
Proof. split; [disc|]. eexists _, _. split; [vm_compute; reflexivity|]. split; [done|vm_compute; reflexivity]. Qed.

(** C51: with asio, ev and wx what timer callbacks (and the handlers after them) send is
    dispatched before the loop is idle again; in order, with every backend. *)
Theorem C51_processed_partial : forall b ops s ev, b <> Fltk -> guarded (lstep b) inside linit ops -> run (lstep b) linit ops = Ok (s, ev) ->
  l_stack s = [] -> l_queue s = [].
Proof. exact l_processed. Qed.
Theorem C51_order : forall b ops s ev, run (lstep b) linit ops = Ok (s, ev) -> handled ev ++ l_queue s = sent ev.
Proof. exact l_sent. Qed.
(** With fltk it waits for something else which processes the queue: as long as only
    timers expire, it is never dispatched. *)
Theorem C51_fltk_refuted : exists ops s ev, guarded (lstep Fltk) inside linit ops /\ guarded (lstep Fltk) disciplined linit ops /\
  run (lstep Fltk) linit ops = Ok (s, ev) /\ l_stack s = [] /\ l_queue s = [5] /\
  forall l s' e, Forall (fun o => o <> LProcess) l -> run (lstep Fltk) s l = Ok (s', e) -> handled e = [].
Proof.
  exists [LStart; LStart; LExpire 1; LSend 5; LReturn]. eexists _, _. split; [ins|]. split; [disc|]. split; [vm_compute; reflexivity|]. split; [done|]. split; [done|].
  intros l s' e Hl H. eapply fltk_idle; [|exact Hl|exact H]. by constructor.
Qed.
Example C51_example : ran_ok (lstep Wx) inside linit [LStart; LExpire 1; LSend 5; LSend 6; LReturn; LDispatch; LSend 7; LDispatch; LDispatch; LReturn]
  (fun s e => l_stack s = [] /\ handled e = [5; 6; 7]).
Proof. split; [ins|]. eexists _, _. split; [vm_compute; reflexivity|done]. Qed.

Print Assumptions C49_safe.
Print Assumptions C49_once.
Print Assumptions C49_never_again.
Print Assumptions C49_waits.
Print Assumptions C49_fires.
Print Assumptions C49_self_cancel_refuted.
Print Assumptions C49_unknown_timer_refuted.
Print Assumptions C50_references.
Print Assumptions C50_self_cancel_refuted.
Print Assumptions C51_processed_partial.
Print Assumptions C51_order.
Print Assumptions C51_fltk_refuted.
