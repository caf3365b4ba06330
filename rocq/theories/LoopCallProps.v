(** C66: a callback of an event loop works on a living supervisor. *)
From stdpp Require Import base list.
From Verif Require Import Base LoopCallModel LoopCallSpec LoopCallProofs.

(** Callbacks which keep to what their situation demands never meet a freed supervisor. *)
Theorem C66_alive k ops : guarded (lstep k) (careful k) linit ops -> exists s e, run (lstep k) linit ops = Ok (s, e).
Proof. intros H. destruct (run_LI k ops linit (LI_init k) H) as (s & e & Hr & _). eauto. Qed.

(** It is freed exactly when nobody points to it any more: no callback leaks it. *)
Theorem C66_freed k ops s e : guarded (lstep k) (careful k) linit ops -> run (lstep k) linit ops = Ok (s, e) ->
  l_freed s = true <-> l_kept s = false /\ Forall (fun w => w_holds w = false) (l_wait s) /\ forall w, l_run s = Some w -> w_holds w = false.
Proof.
  intros Hg Hr. rewrite (run_freed k ops linit s e (LI_init k) eq_refl Hg Hr). unfold held. rewrite negb_true_iff, !orb_false_iff. split.
  - intros [[H1 H2] H3]. split; [done|]. split.
    + apply list.Forall_forall. intros w Hw. destruct (w_holds w) eqn:E; [|done]. rewrite <- H2. symmetry. apply existsb_exists. exists w. split; [by apply elem_of_list_In|done].
    + intros w Hw. by rewrite Hw in H3.
  - intros (H1 & H2 & H3). repeat split; [done| |].
    + induction H2 as [|w l Hw _ IH]; [done|]. cbn. by rewrite Hw.
    + destruct (l_run s) as [w|]; [by apply H3|done].
Qed.

(** The demand is exact: any other callback alone makes the program use freed memory. *)
Theorem C66_exact c k : possible c k = true ->
  sound c k = false <-> exists ops, Forall (fun o => forall c', o = LCall c' -> c' = c) ops /\ guarded (lstep k) resourceful linit ops /\ run (lstep k) linit ops = Crash.
Proof.
  intros Hp. split.
  - intros H. destruct (trial_crash c k H) as [H1 H2]. exists (trial c). split; [|done]. unfold trial. repeat (constructor; [by intros c' [=]|]). constructor.
  - intros (ops & Hc & Hg & Hr). destruct (sound c k) eqn:E; [|done]. exfalso.
    assert (Hg' : guarded (lstep k) (careful k) linit ops).
    { clear Hr. generalize dependent linit. induction Hc as [|o ops Ho _ IH]; intros s Hg; [done|]. destruct Hg as [H1 H2]. cbn. split.
      - split; [done|]. destruct o as [c'| | | | |]; try done. by rewrite (Ho c' eq_refl).
      - destruct (lstep k s o) as [[s' e']| |]; auto. }
    destruct (C66_alive k ops Hg') as (s & e & H). congruence.
Qed.

(** Of all callbacks in all situations two are not as they should be. *)
Theorem C66_table c k : possible c k = true -> sound c k = false <-> c = EvAsync /\ k = KSame \/ c = AsioForward /\ k = KThread.
Proof. destruct c, k; try done; vm_compute; naive_solver. Qed.

(** The asynchronous watcher of libev runs on a plain pointer and reads [poll_duration]
    when the messages are processed: a child supervisor in the locality of its parent is
    freed by then if the parent has taken its confirmation. *)
Theorem C66_async_refuted : exists ops,
  Forall (fun o => forall c, o = LCall c -> c = EvAsync) ops /\ guarded (lstep KSame) resourceful linit ops /\ run (lstep KSame) linit ops = Crash.
Proof. exact (proj1 (C66_exact EvAsync KSame eq_refl) eq_refl). Qed.

(** The completion of an operation of an actor keeps the actor only: its supervisor is freed
    by the parent in another thread while it still looks at its queue. *)
Theorem C66_forward_refuted : exists ops,
  Forall (fun o => forall c, o = LCall c -> c = AsioForward) ops /\ guarded (lstep KThread) resourceful linit ops /\ run (lstep KThread) linit ops = Crash.
Proof. exact (proj1 (C66_exact AsioForward KThread eq_refl) eq_refl). Qed.

(** Without the rule of resources the completion comes to a supervisor which is gone, in one thread too. *)
Definition dangling : list lop :=
  [LCall AsioForward; LCall AsioEnqueue; LStart 1; LStep; LHandle true; LLeave; LStep; LStep; LLeave; LStep; LStep; LDrop; LStart 0; LStep].
Theorem C66_dangling_refuted : Forall (fun o => forall c, o = LCall c -> sound c KTurn = true /\ possible c KTurn = true) dangling /\
  run (lstep KTurn) linit dangling = Crash.
Proof. split; [|by vm_compute]. unfold dangling. repeat (constructor; [intros c [= <-]; done || done|]). constructor. Qed.

(** Complete lives. *)
Definition whole_life : list lop :=
  [LCall AsioEnqueue; LCall AsioTimer; LCall AsioForwardSelf; LStart 0; LStep; LHandle false; LLeave; LStep; LStep; LLeave; LStep; LStep;
   LStart 0; LStep; LStep; LStart 0; LStep; LStep; LStart 0; LStep; LStep; LHandle true; LDrop; LLeave; LStep; LStep; LLeave; LStep; LStep;
   LStart 0; LStep; LStep; LLeave; LStep; LStep].
Example C66_life : guarded (lstep KThread) (careful KThread) linit whole_life /\
  run (lstep KThread) linit whole_life = Ok (LSt false true true [] None false, []).
Proof.
  split; [|by vm_compute]. apply (guardedb_sound _ (fun s o => bool_decide (careful KThread s o))); [intros s o; by apply bool_decide_eq_true|by vm_compute].
Qed.
Definition ev_life : list lop := [LCall EvTimer; LCall EvTimer; LStart 0; LStep; LStep; LHandle true; LDrop; LLeave; LStep; LStep].
Example C66_ev_life : guarded (lstep KSame) (careful KSame) linit ev_life /\
  run (lstep KSame) linit ev_life = Ok (LSt false true true [] None false, []).
Proof.
  split; [|by vm_compute]. apply (guardedb_sound _ (fun s o => bool_decide (careful KSame s o))); [intros s o; by apply bool_decide_eq_true|by vm_compute].
Qed.
Example C66_root : run (lstep KHeld) linit [LCall EvAsync; LStart 0; LStep; LStep; LHandle true; LDrop; LLeave; LStep; LStep; LLeave; LStep] = Ok (LSt true true false [] None false, []).
Proof. by vm_compute. Qed.

Print Assumptions C66_alive.
Print Assumptions C66_freed.
Print Assumptions C66_exact.
Print Assumptions C66_table.
Print Assumptions C66_async_refuted.
Print Assumptions C66_forward_refuted.
Print Assumptions C66_dangling_refuted.
