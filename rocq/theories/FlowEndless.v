(** C64: births are not free.  A spawner without a pause between its instances keeps
    a supervisor busy for ever, by messages alone. *)
From stdpp Require Import base list gmap.
From Verif Require Import Base ChildMgrModel FamilyModel FlowSpec.
Local Open Scope N_scope.
Section endless.
Context (hp : bool) (policy : spolicy) (sync : bool).
Notation fstep := (fstep hp policy sync).

(** The spawner [c] is about to make its next instance. *)
Record about (s : fstate) (c : N) : Prop := {
  ab_state : cm_state (f_cm s) = AOperational;
  ab_q : f_q s = [MSpawn c];
  ab_sq : cm_spawnq (f_cm s) = [c];
  ab_cq : cm_createq (f_cm s) = [];
  ab_map : exists k sh att, cm_map (f_cm s) !! c = Some (CInfo (Some k) endless_cfg None sh att true 0 (cm_now (f_cm s)) false false);
  ab_bye : forall x, x ∈ f_bye s -> x < cm_next (f_cm s);
  ab_bye0 : 0 ∉ f_bye s;
  ab_next : 1 <= cm_next (f_cm s);
  ab_foreign : f_foreign s = ∅
}.
Lemma take1 c : take_first c [c] = Some [].
Proof. cbn. by rewrite N.eqb_refl. Qed.
Lemma run_cons s o s1 e1 ops s2 e2 : fstep s o = Ok (s1, e1) -> run fstep s1 ops = Ok (s2, e2) -> run fstep s (o :: ops) = Ok (s2, e1 ++ e2).
Proof. intros H1 H2. cbn. by rewrite H1; cbn; rewrite H2. Qed.
Local Arguments run : simpl never.
Definition take (early : bool) : fop := FDeliver true false early false false false false.

Ltac norm := cbv [push evolve FamilyModel.set_q FamilyModel.set_up FamilyModel.set_down FamilyModel.set_init FamilyModel.set_shut FamilyModel.set_bye FamilyModel.set_phase FamilyModel.set_foreign FamilyModel.set_cm set_map put_info set_shutout set_initout set_spawnq set_createq set_children set_fresh i_shut i_actor f_cm f_q f_up f_down f_foreign f_init f_shut f_bye f_phase cm_state cm_initreq cm_map cm_spawning cm_timers cm_children cm_spawnq cm_createq cm_initout cm_shutout cm_unsub cm_next cm_sids cm_tid cm_now cm_loop app ci_sid ci_cfg ci_actor ci_shut ci_attempts ci_active ci_timer ci_last ci_initialized ci_started negb].
Lemma cycle s c : about s c -> exists s' e, run fstep s [take true; take false; take false; take false; take false; take false; FChildDone (cm_next (f_cm s)); take false] = Ok (s', e) /\
  about s' (cm_next (f_cm s)) /\ births e = 1%nat.
Proof.
  intros [Hst Hq Hsq Hcq (k & sh & att & Hm) Hb Hb0 Hn Hf]. destruct s as [[st ireq m sp ti ch sq cq io so un nx sd td now lo] q up dn fo ini shu bye ph]. cbn in *. subst.
  rename nx into d. assert (Hd : d ∉ bye) by (intros Hx; specialize (Hb _ Hx); lia). assert (Hd0 : (d =? 0) = false) by (apply N.eqb_neq; lia).
  unfold take.
  assert (Hfd : d ∉ (∅ : gset N)) by set_solver.
  match goal with |- context [run fstep ?x _] => eassert (H1 : fstep x (FDeliver true false true false false false false) = Ok (_, _)) end.
  { cbn. rewrite decide_False by done. unfold manage. cbn -[take_first]. rewrite take1. unfold on_spawn. cbn. rewrite Hm. cbn. unfold from. cbn. rewrite decide_False by set_solver. cbn. unfold spawn_attempt. cbn. rewrite (bool_decide_eq_false_2 (RAlways = RNever)) by done. norm. reflexivity. }
  match type of H1 with _ = Ok (?x, _) => eassert (H2 : fstep x (FDeliver true false false false false false false) = Ok (_, _)) end.
  { cbn. rewrite decide_False by done. unfold manage0, manage. cbn. unfold on_shutdown_trigger. cbn. rewrite lookup_insert. unfold request_shutdown. cbn. unfold cancel_init. cbn. rewrite lookup_insert. cbn. rewrite Hd0. cbn. norm. reflexivity. }
  match type of H2 with _ = Ok (?x, _) => eassert (H3 : fstep x (FDeliver true false false false false false false) = Ok (_, _)) end.
  { cbn. rewrite decide_False by done. unfold manage0, manage. cbn. rewrite N.eqb_refl. unfold on_create. cbn. rewrite lookup_insert. cbn. norm. reflexivity. }
  match type of H3 with _ = Ok (?x, _) => eassert (H4 : fstep x (FDeliver true false false false false false false) = Ok (_, _)) end.
  { cbn. unfold to_child. cbn. rewrite decide_False by done. unfold child_handles. cbn. rewrite decide_False by done. rewrite lookup_insert. cbn. unfold own. cbn. rewrite decide_False by done. norm. reflexivity. }
  match type of H4 with _ = Ok (?x, _) => eassert (H5 : fstep x (FDeliver true false false false false false false) = Ok (_, _)) end.
  { cbn. rewrite Hd0. unfold to_child. cbn. rewrite decide_False by done. unfold child_handles. cbn. rewrite decide_False by done. rewrite lookup_insert. cbn. norm. reflexivity. }
  match type of H5 with _ = Ok (?x, _) => eassert (H6 : fstep x (FDeliver true false false false false false false) = Ok (_, _)) end.
  { cbn. rewrite Hd0. unfold to_child. cbn. rewrite decide_False by done. unfold child_handles. cbn. rewrite decide_False by done. rewrite lookup_insert. cbn. norm. reflexivity. }
  match type of H6 with _ = Ok (?x, _) => eassert (H7 : fstep x (FChildDone d) = Ok (_, _)) end.
  { cbn. unfold child_ready. cbn. rewrite lookup_insert. cbn. rewrite bool_decide_eq_true_2 by (split; [done|lia]). rewrite decide_True by set_solver. unfold from. cbn. rewrite decide_False by done. cbn. norm. reflexivity. }
  match type of H7 with _ = Ok (?x, _) => eassert (H8 : fstep x (FDeliver true false false false false false false) = Ok (_, _)) end.
  { cbn. rewrite decide_False by set_solver. rewrite decide_True by set_solver. unfold confirm, manage0, manage. cbn. rewrite bool_decide_eq_true_2 by set_solver. unfold on_shutdown_confirm. cbn. rewrite lookup_insert. cbn. unfold remove_child. cbn. rewrite lookup_insert. cbn. norm. rewrite (bool_decide_eq_false_2 (AOperational = AInitializing)) by done. cbn. unfold cancel_init. cbn. rewrite lookup_insert. cbn. rewrite lookup_insert. cbn. rewrite (proj2 (N.leb_le 0 (now - now))) by lia. cbn. rewrite (bool_decide_eq_false_2 (RAlways = RFailOnly)), (bool_decide_eq_false_2 (RAlways = RNormalOnly)), (bool_decide_eq_false_2 (RAlways = RAskActor)) by done. cbn. rewrite (bool_decide_eq_false_2 (AOperational = AShuttingDown)) by done. cbn. unfold init_continue. cbn. rewrite (bool_decide_eq_false_2 (AOperational = AInitializing)) by done. cbn. unfold on_child_shutdown. cbn. rewrite (bool_decide_eq_false_2 (AOperational = AShuttingDown)), andb_false_r by done. cbn. norm. reflexivity. }
  eexists _, _. split; [exact (run_cons _ _ _ _ _ _ _ H1 (run_cons _ _ _ _ _ _ _ H2 (run_cons _ _ _ _ _ _ _ H3 (run_cons _ _ _ _ _ _ _ H4 (run_cons _ _ _ _ _ _ _ H5 (run_cons _ _ _ _ _ _ _ H6 (run_cons _ _ _ _ _ _ _ H7 (run_cons _ _ _ _ [] _ _ H8 eq_refl))))))))|].
  split; [|reflexivity]. split; cbn.
  - done.
  - done.
  - done.
  - done.
  - rewrite lookup_insert. by eexists _, _, _.
  - intros x Hx. assert (x = d \/ x ∈ bye) as [->|Hx'] by set_solver; [lia|]. specialize (Hb x Hx'). lia.
  - assert (0 <> d) by lia. set_solver.
  - lia.
  - done.
Qed.
Lemma cycles n s c : about s c -> exists ops s' e c', run fstep s ops = Ok (s', e) /\ Forall (fun o => by_messages o = true) ops /\ about s' c' /\ births e = n.
Proof.
  revert s c. induction n as [|n IH]; intros s c Ha; [exists [], s, [], c; repeat split; done || apply Ha|].
  destruct (cycle s c Ha) as (s1 & e1 & H1 & Ha1 & Hb1). destruct (IH _ _ Ha1) as (ops & s2 & e2 & c2 & H2 & Hf & Ha2 & Hb2).
  exists ([take true; take false; take false; take false; take false; take false; FChildDone (cm_next (f_cm s)); take false] ++ ops), s2, (e1 ++ e2), c2.
  split_and!; [|by repeat constructor|done|].
  - rewrite run_app, H1. cbn. by rewrite H2.
  - unfold births in *. rewrite List.filter_app, app_length. lia.
Qed.
End endless.

Definition endless_start : list fop :=
  [FDeliver false false false false false false false; FInitialized; FDeliver false false false false false false false; FStarted; FSpawn endless_cfg].
Lemma endless_run policy n : exists s0 e0 ops s e, run (fstep false policy false) (finit false) endless_start = Ok (s0, e0) /\ run (fstep false policy false) s0 ops = Ok (s, e) /\
  Forall (fun o => by_messages o = true) ops /\ births e = n.
Proof.
  destruct (run (fstep false policy false) (finit false) endless_start) as [[s0 e0]| |] eqn:E; [|by destruct policy; vm_compute in E..].
  assert (Ha : about s0 1).
  { destruct policy; vm_compute in E; injection E as <- <-; (split; [done|done|done|done| |..]); cbn.
    all: try done.
    all: try (by eexists _, _, _).
    all: set_solver. }
  destruct (cycles false policy false n s0 1 Ha) as (ops & s & e & c & H1 & H2 & _ & H3). by exists s0, e0, ops, s, e.
Qed.
