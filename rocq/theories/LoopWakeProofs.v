(** The inbound protocols of the asio and ev backends: proofs. *)
From stdpp Require Import base list gmap.
From Verif Require Import Base Prog LoopWakeModel LoopWakeSpec.
Open Scope N_scope.

(** ** The common routine *)
Lemma queued_app a b : queued (a ++ b) = queued a ++ queued b.
Proof. apply omap_app. Qed.
Lemma dispatched_app a b : dispatched (a ++ b) = dispatched a ++ dispatched b.
Proof. apply omap_app. Qed.
Lemma queued_ext l : queued (Ext <$> l) = l.
Proof. induction l as [|m l IH]; [done|]. cbn. by f_equal. Qed.
Lemma queued_loc l : queued (Loc <$> l) = [].
Proof. by induction l. Qed.
(** What is on its way. *)
Definition flow (k : core) : list N := queued (c_queue k) ++ c_inb k.
Lemma core_step_flow k b k' e : core_step k b = (k', e) -> dispatched e ++ flow k' = flow k.
Proof.
  destruct k as [inb q r]. unfold core_step, flow. cbn. intros H.
  destruct r as [[|last| |]|]; cbn in H.
  - destruct inb as [|m rest]; injection H as <- <-; cbn; [done|]. by rewrite queued_app, <-app_assoc.
  - destruct q as [|x rest]; injection H as <- <-; cbn; [done|]. by destruct x.
  - destruct (b && _); by injection H as <- <-.
  - destruct inb as [|m rest]; injection H as <- <-; cbn; [done|]. by rewrite queued_app, <-app_assoc.
  - by injection H as <- <-.
Qed.
Lemma core_local_flow k m : flow (core_local k m) = flow k.
Proof. unfold core_local, flow. destruct (c_run k) as [[]|]; try done. cbn. by rewrite queued_app, app_nil_r. Qed.
Lemma core_push_flow k m : flow (core_push k m) = flow k ++ [m].
Proof. unfold core_push, flow. cbn. apply app_assoc. Qed.

(** Inbound messages have a wake-up ([P]) before them, and queued ones a running callback. *)
Definition tended (P : Prop) (k : core) : Prop :=
  (c_inb k <> [] -> P \/ c_run k = Some PMove \/ c_run k = Some PPollPop) /\ (c_queue k <> [] -> c_run k <> None).
Lemma core_step_tended P k b k' e : tended P k -> core_step k b = (k', e) -> tended P k'.
Proof.
  destruct k as [inb q r]. intros [H1 H2]. unfold core_step. cbn in *. intros H. destruct r as [[|last| |]|]; cbn in H.
  - destruct inb as [|m rest]; injection H as <- <-; (split; cbn; [try done|]); [|by right; left|done]. case_bool_decide; done.
  - assert (HP : inb <> [] -> P) by (intros HH; by destruct (H1 HH) as [?|[?|?]]).
    destruct q as [|x rest]; injection H as <- <-; (split; cbn; [by left; auto|done]).
  - assert (HP : inb <> [] -> P) by (intros HH; by destruct (H1 HH) as [?|[?|?]]).
    destruct (b && _); injection H as <- <-; (split; cbn; [by left; auto|]); [done|]. by case_bool_decide.
  - destruct inb as [|m rest]; injection H as <- <-; (split; cbn; [try done|done]). by right; right.
  - by injection H as <- <-.
Qed.
Lemma tended_mono (P Q : Prop) k : (P -> Q) -> tended P k -> tended Q k.
Proof. intros HPQ [H1 H2]. split; [|done]. intros H. destruct (H1 H) as [?|?]; auto. Qed.
Lemma core_local_tended P k m : tended P k -> tended P (core_local k m).
Proof. unfold core_local. destruct k as [inb q [[]|]]; try done. intros [H1 H2]. split; cbn in *; done. Qed.
Lemma core_push_tended (P : Prop) k m : P -> tended P k -> tended P (core_push k m).
Proof. intros HP [_ H2]. split; [by left|done]. Qed.

(** The routine ends. *)
Fixpoint core_steps (n : nat) (k : core) : core * list wev :=
  match n with O => (k, []) | S n => let '(k1, e1) := core_step k false in let '(k2, e2) := core_steps n k1 in (k2, e1 ++ e2) end.
Definition ends (k : core) : Prop := exists n, c_run (core_steps n k).1 = None.
Lemma ends_step k : ends (core_step k false).1 -> ends k.
Proof.
  intros [n H]. exists (S n). cbn. destruct (core_step k false) as [k1 e1]. cbn in H. by destruct (core_steps n k1) as [k2 e2].
Qed.
Lemma ends_none k : c_run k = None -> ends k.
Proof. by exists O. Qed.
Lemma ends_proc q inb last : ends (Core inb q (Some (PProc last))).
Proof.
  induction q as [|x q IH]; apply ends_step; cbn; [by apply ends_none|]. unfold with_queue. cbn. apply IH.
Qed.
Lemma ends_any k : ends k.
Proof.
  destruct k as [inb q [[|last| |]|]]; [| |apply ends_step|..].
  - revert q. induction inb as [|m inb IH]; intros q; apply ends_step; cbn.
    + unfold with_run. cbn. case_bool_decide; [by apply ends_none|apply ends_proc].
    + unfold pop_to_queue. cbn. apply IH.
  - apply ends_proc.
  - cbn. unfold with_run. cbn. case_bool_decide; [by apply ends_none|apply ends_proc].
  - revert q. induction inb as [|m inb IH]; intros q; apply ends_step; cbn.
    + unfold with_run. cbn. apply ends_step. cbn. unfold with_run. cbn. case_bool_decide; [by apply ends_none|apply ends_proc].
    + unfold pop_to_queue. cbn. apply IH.
  - by apply ends_none.
Qed.

(** ** asio *)
Lemma gstep_total s o : exists s' e, gstep s o = Ok (s', e).
Proof. destruct o; cbn; repeat case_match; eauto. Qed.
Definition gwoken (s : gstate) : Prop := g_tasks s <> [] \/ g_mid s <> ∅.
Definition ginv (s : gstate) : Prop := tended (gwoken s) (g_core s).
Lemma gstep_inv s o s' e : ginv s -> gstep s o = Ok (s', e) -> ginv s'.
Proof.
  unfold ginv, gwoken. intros HI. destruct o; cbn.
  - case_bool_decide as Ht; intros H; injection H as <- <-; [done|]. cbn. apply core_push_tended.
    + right. intros E. assert (t ∈ (∅ : gset N)) as []%not_elem_of_empty by (rewrite <-E; apply elem_of_union_l, elem_of_singleton_2; done).
    + eapply tended_mono; [|exact HI]. intros [?|Hm]; [by left|]. right. intros E. apply Hm. apply elem_of_equiv_empty_L. intros x Hx.
      assert (x ∈ (∅ : gset N)) as []%not_elem_of_empty by (rewrite <-E; by apply elem_of_union_r).
  - case_bool_decide as Ht; intros H; injection H as <- <-; [|done]. cbn. eapply tended_mono; [|exact HI]. intros _. left. by destruct (g_tasks s).
  - intros H; injection H as <- <-. cbn. eapply tended_mono; [|exact HI]. intros _. left. by destruct (g_tasks s).
  - destruct (c_run (g_core s)) eqn:Er; [intros H; by injection H as <- <-|]. destruct (g_tasks s) as [|k rest] eqn:Et; [intros H; injection H as <- <-; by rewrite Et|].
    intros H; injection H as <- <-. cbn. split; cbn; [by right; left|done].
  - destruct (core_step (g_core s) choice) as [k e1] eqn:Ec. intros H; injection H as <- <-. cbn. by eapply core_step_tended.
  - intros H; injection H as <- <-. cbn. by apply core_local_tended.
Qed.
Lemma gwoken_inv ops s e : run gstep ginit ops = Ok (s, e) -> ginv s.
Proof. apply (run_inv gstep ginv gstep_inv). split; done. Qed.
Lemma g_not_stuck ops s e : run gstep ginit ops = Ok (s, e) -> gidle s -> g_mid s = ∅ -> c_inb (g_core s) = [] /\ c_queue (g_core s) = [].
Proof.
  intros H [H1 H2] H3. destruct (gwoken_inv _ _ _ H) as [G1 G2]. split.
  - destruct (c_inb (g_core s)); [done|]. destruct G1 as [[?|?]|[?|?]]; congruence.
  - destruct (c_queue (g_core s)); [done|]. by destruct G2.
Qed.
Lemma g_order_gen ops : forall s s' e, run gstep s ops = Ok (s', e) -> dispatched e ++ flow (g_core s') = flow (g_core s) ++ gpushed s ops.
Proof.
  induction ops as [|o ops IH]; intros s s' e H; cbn in H; [injection H as <- <-; by rewrite app_nil_r|].
  destruct (gstep s o) as [[s1 e1]| |] eqn:Es; cbn in H; [|done..]. destruct (run gstep s1 ops) as [[s2 e2]| |] eqn:Er; cbn in H; [|done..]. injection H as <- <-.
  rewrite dispatched_app, <-app_assoc, (IH _ _ _ Er). cbn [gpushed]. rewrite Es. destruct o; cbn in Es.
  - case_bool_decide; injection Es as <- <-; [done|]. cbn [g_core]. by rewrite core_push_flow, <-app_assoc.
  - case_bool_decide; by injection Es as <- <-.
  - by injection Es as <- <-.
  - destruct (c_run (g_core s)); [by injection Es as <- <-|]. destruct (g_tasks s) as [|k rest]; injection Es as <- <-; [done|]. unfold flow. cbn. by rewrite queued_app, queued_loc, app_nil_r.
  - destruct (core_step (g_core s) choice) as [k e3] eqn:Ec. injection Es as <- <-. apply core_step_flow in Ec. cbn [g_core v_core]. by rewrite app_assoc, Ec.
  - injection Es as <- <-. cbn [g_core v_core]. by rewrite core_local_flow.
Qed.
Lemma g_order ops s e : run gstep ginit ops = Ok (s, e) -> dispatched e ++ queued (c_queue (g_core s)) ++ c_inb (g_core s) = gpushed ginit ops.
Proof. intros H. apply (g_order_gen _ _ _ _ H). Qed.
Lemma core_steps_g n : forall k mid tasks, exists e, run gstep (GState k mid tasks) (replicate n (GStep false)) = Ok (GState (core_steps n k).1 mid tasks, e).
Proof.
  induction n as [|n IH]; intros k mid tasks; [by eexists|]. cbn. destruct (core_step k false) as [k1 e1]. cbn.
  destruct (IH k1 mid tasks) as [e ->]. cbn. destruct (core_steps n k1) as [k2 e2]. eauto.
Qed.
Lemma run_compose {S O E} (step : S -> O -> res (S * list E)) s o1 s1 e1 o2 s2 e2 :
  run step s o1 = Ok (s1, e1) -> run step s1 o2 = Ok (s2, e2) -> run step s (o1 ++ o2) = Ok (s2, e1 ++ e2).
Proof. intros H1 H2. by rewrite run_app, H1; cbn; rewrite H2. Qed.
Lemma g_ends k mid tasks : exists l s' e', run gstep (GState k mid tasks) l = Ok (s', e') /\ Forall gown l /\ gidle s' /\ g_mid s' = mid.
Proof.
  revert k. induction tasks as [|t tasks IH]; intros k; destruct (ends_any k) as [n Hn]; destruct (core_steps_g n k mid) with (tasks := @nil task) as [e1 H1].
  - exists (replicate n (GStep false)), (GState (core_steps n k).1 mid []), e1. split_and!; [done| |done|done]. apply Forall_replicate. by right.
  - clear e1 H1. destruct (core_steps_g n k mid (t :: tasks)) as [e1 H1]. set (k1 := (core_steps n k).1) in *.
    set (ms := match t with TProcess => [] | TUser ms => ms end). destruct (IH (Core (c_inb k1) (c_queue k1 ++ (Loc <$> ms)) (Some PMove))) as (l & s' & e' & H2 & Hl & Hi & Hm).
    exists (replicate n (GStep false) ++ GStart :: l), s'. eexists. split_and!; [eapply run_compose; [exact H1|]| |done|done].
    + cbn. rewrite Hn. cbn. fold ms. by rewrite H2.
    + apply Forall_app. split; [apply Forall_replicate; by right|]. constructor; [by left|done].
Qed.
Lemma gpushed_own l : forall s, Forall gown l -> gpushed s l = [].
Proof.
  induction l as [|o l IH]; intros s H; [done|]. inversion H as [|? ? Ho Hl]; subst. cbn. destruct (gstep_total s o) as (s1 & e1 & ->). destruct Ho as [->| ->]; by apply IH.
Qed.
Lemma gpushed_app o1 : forall s s1 e1 o2, run gstep s o1 = Ok (s1, e1) -> gpushed s (o1 ++ o2) = gpushed s o1 ++ gpushed s1 o2.
Proof.
  induction o1 as [|o o1 IH]; intros s s1 e1 o2 H; cbn in H; [by injection H as <- <-|].
  destruct (gstep s o) as [[s2 e2]| |] eqn:Es; cbn in H; [|done..]. destruct (run gstep s2 o1) as [[s3 e3]| |] eqn:Er; cbn in H; [|done..]. injection H as <- <-.
  cbn. rewrite Es, (IH _ _ _ o2 Er). destruct o; try done. by case_bool_decide.
Qed.
Lemma g_progress ops s e : run gstep ginit ops = Ok (s, e) -> g_mid s = ∅ ->
  exists l s' e', run gstep s l = Ok (s', e') /\ Forall gown l /\ gidle s' /\ dispatched e' = queued (c_queue (g_core s)) ++ c_inb (g_core s).
Proof.
  intros H Hm. destruct s as [k mid tasks]. destruct (g_ends k mid tasks) as (l & s' & e' & Hr & Hl & Hi & Hm'). exists l, s', e'. split_and!; [done..|].
  pose proof (run_compose _ _ _ _ _ _ _ _ H Hr) as HH. destruct (g_not_stuck _ _ _ HH Hi) as [E1 E2]; [cbn in Hm; congruence|].
  apply g_order in HH. rewrite E1, E2 in HH. cbn [queued omap list_omap app] in HH. rewrite app_nil_r in HH. rewrite (gpushed_app _ _ _ _ _ H), (gpushed_own l), app_nil_r in HH by done.
  pose proof (g_order _ _ _ H) as HO. rewrite dispatched_app, <-HO in HH. by apply app_inv_head in HH.
Qed.

(** ** ev *)
Lemma vstep_total s o : exists s' e, vstep s o = Ok (s', e).
Proof. destruct o; cbn; repeat case_match; eauto. Qed.
Definition vwoken (s : vstate) : Prop := exists c, c ∈ v_active s /\ (c ∈ v_sent s \/ exists t, v_mid s !! t = Some c).
Definition vinv (s : vstate) : Prop := tended (vwoken s) (v_core s).
Lemma vstep_inv s o s' e : vinv s -> to_active s o -> vstep s o = Ok (s', e) -> vinv s'.
Proof.
  unfold vinv. intros HI Ho. destruct o; cbn in *.
  - intros H; injection H as <- <-. cbn. eapply tended_mono; [|exact HI]. intros (x & Hx & HH). exists x. cbn. split; [by apply elem_of_union_r|done].
  - destruct (v_mid s !! t) as [x|] eqn:Et; intros H; injection H as <- <-; [done|]. cbn. apply core_push_tended.
    + exists c. split; [done|]. right. exists t. apply lookup_insert.
    + eapply tended_mono; [|exact HI]. intros (x & Hx & HH). exists x. split; [done|]. destruct HH as [?|[t' Ht']]; [by left|]. right. exists t'. cbn. rewrite lookup_insert_ne; congruence.
  - destruct (v_mid s !! t) as [x|] eqn:Et; intros H; injection H as <- <-; [|done]. cbn. eapply tended_mono; [|exact HI]. intros (y & Hy & HH). exists y. cbn. split; [done|].
    destruct HH as [?|[t' Ht']]; [left; by apply elem_of_union_r|]. destruct (decide (t' = t)) as [->|Hne].
    + left. rewrite Et in Ht'. injection Ht' as ->. apply elem_of_union_l, elem_of_singleton_2. done.
    + right. exists t'. by rewrite lookup_delete_ne.
  - intros H; injection H as <- <-. cbn. eapply tended_mono; [|exact HI]. intros (x & Hx & HH). exists x. cbn. split; [done|]. destruct HH; [left; by apply elem_of_union_r|by right].
  - case_bool_decide as Hc; intros H; injection H as <- <-; [|done]. split; cbn; [by right; left|done].
  - case_bool_decide as Hc; intros H; injection H as <- <-; [|done]. destruct HI as [H1 H2]. split; cbn; [|done]. intros Hi. destruct (H1 Hi) as [?|[?|?]]; [by left|congruence|congruence].
  - destruct (core_step (v_core s) choice) as [k e1] eqn:Ec. intros H; injection H as <- <-. cbn. by eapply core_step_tended.
  - intros H; injection H as <- <-. cbn. by apply core_local_tended.
  - unfold busy. destruct (c_run (v_core s)) as [[]|] eqn:Er; intros H; injection H as <- <-; try done.
Qed.
Lemma v_inv ops s e : guarded vstep to_active vinit ops -> run vstep vinit ops = Ok (s, e) -> vinv s.
Proof.
  intros Hg H. refine (run_inv_ev vstep to_active (fun s _ => vinv s) _ ops vinit [] s e _ Hg H); [|split; done].
  intros s0 ev o s' e' HI Ho Hs. by eapply vstep_inv.
Qed.
Lemma v_not_stuck ops s e : guarded vstep to_active vinit ops -> run vstep vinit ops = Ok (s, e) -> vidle s -> v_mid s = ∅ -> c_inb (v_core s) = [] /\ c_queue (v_core s) = [].
Proof.
  intros Hg H [H1 H2] H3. destruct (v_inv _ _ _ Hg H) as [G1 G2]. split.
  - destruct (c_inb (v_core s)); [done|]. destruct G1 as [(c & Hc & [Hs|[t Ht]])|[?|?]]; [done| | |congruence|congruence].
    + assert (c ∈ (∅ : gset N)) as []%not_elem_of_empty. rewrite <-H1. by apply elem_of_intersection.
    + by rewrite H3, lookup_empty in Ht.
  - destruct (c_queue (v_core s)); [done|]. by destruct G2.
Qed.
Lemma v_order_gen ops : forall s s' e, run vstep s ops = Ok (s', e) -> dispatched e ++ flow (v_core s') = flow (v_core s) ++ vpushed s ops.
Proof.
  induction ops as [|o ops IH]; intros s s' e H; cbn in H; [injection H as <- <-; by rewrite app_nil_r|].
  destruct (vstep s o) as [[s1 e1]| |] eqn:Es; cbn in H; [|done..]. destruct (run vstep s1 ops) as [[s2 e2]| |] eqn:Er; cbn in H; [|done..]. injection H as <- <-.
  rewrite dispatched_app, <-app_assoc, (IH _ _ _ Er). cbn [vpushed]. rewrite Es. destruct o; cbn in Es.
  - by injection Es as <- <-.
  - destruct (v_mid s !! t); injection Es as <- <-; [done|]. cbn [v_core]. by rewrite core_push_flow, <-app_assoc.
  - destruct (v_mid s !! t); by injection Es as <- <-.
  - by injection Es as <- <-.
  - case_bool_decide; by injection Es as <- <-.
  - case_bool_decide; injection Es as <- <-; [|done]. unfold flow. cbn. by rewrite queued_app, queued_loc, app_nil_r.
  - destruct (core_step (v_core s) choice) as [k e3] eqn:Ec. injection Es as <- <-. apply core_step_flow in Ec. cbn [g_core v_core]. by rewrite app_assoc, Ec.
  - injection Es as <- <-. cbn [g_core v_core]. by rewrite core_local_flow.
  - destruct (busy (v_core s)); injection Es as <- <-; [|done]. unfold flow. cbn. by rewrite queued_app, queued_ext, app_nil_r.
Qed.
Lemma v_order ops s e : run vstep vinit ops = Ok (s, e) -> dispatched e ++ queued (c_queue (v_core s)) ++ c_inb (v_core s) = vpushed vinit ops.
Proof. intros H. apply (v_order_gen _ _ _ _ H). Qed.
Lemma core_steps_v n : forall k mid sent act, exists e, run vstep (VState k mid sent act) (replicate n (VStep false)) = Ok (VState (core_steps n k).1 mid sent act, e).
Proof.
  induction n as [|n IH]; intros k mid sent act; [by eexists|]. cbn. destruct (core_step k false) as [k1 e1]. cbn.
  destruct (IH k1 mid sent act) as [e ->]. cbn. destruct (core_steps n k1) as [k2 e2]. eauto.
Qed.
Lemma v_ends n : forall k mid sent act, size (sent ∩ act) = n -> exists l s' e', run vstep (VState k mid sent act) l = Ok (s', e') /\ Forall vown l /\ vidle s' /\ v_mid s' = mid.
Proof.
  induction n as [|n IH]; intros k mid sent act Hsz; destruct (ends_any k) as [j Hj]; destruct (core_steps_v j k mid sent act) as [e1 H1].
  - exists (replicate j (VStep false)), (VState (core_steps j k).1 mid sent act), e1. split_and!; [done| | |done].
    + apply Forall_replicate. by left.
    + split; [by apply size_empty_inv, leibniz_equiv in Hsz|done].
  - destruct (set_choose_or_empty (sent ∩ act)) as [[c Hc]|Hc]; [|apply leibniz_equiv in Hc; by rewrite Hc, size_empty in Hsz].
    destruct (proj1 (elem_of_intersection _ _ _) Hc) as [Hc1 Hc2].
    destruct (IH (with_run (core_steps j k).1 (Some PMove)) mid (sent ∖ {[c]}) act) as (l & s' & e' & H2 & Hl & Hi & Hm).
    { replace (sent ∖ {[c]} ∩ act) with ((sent ∩ act) ∖ {[c]}) by set_solver. rewrite size_difference by set_solver. rewrite size_singleton, Hsz. lia. }
    exists (replicate j (VStep false) ++ VWake c :: l), s'. eexists. split_and!; [eapply run_compose; [exact H1|]| |done|done].
    + cbn. rewrite bool_decide_eq_true_2 by done. cbn. by rewrite H2.
    + apply Forall_app. split; [apply Forall_replicate; by left|]. constructor; [right; by exists c|done].
Qed.
Lemma vpushed_own l : forall s, Forall vown l -> vpushed s l = [].
Proof.
  induction l as [|o l IH]; intros s H; [done|]. inversion H as [|? ? Ho Hl]; subst. cbn [vpushed]. destruct (vstep_total s o) as (s1 & e1 & ->). destruct Ho as [->|[c ->]]; by apply IH.
Qed.
Lemma vpushed_app o1 : forall s s1 e1 o2, run vstep s o1 = Ok (s1, e1) -> vpushed s (o1 ++ o2) = vpushed s o1 ++ vpushed s1 o2.
Proof.
  induction o1 as [|o o1 IH]; intros s s1 e1 o2 H; cbn in H; [by injection H as <- <-|].
  destruct (vstep s o) as [[s2 e2]| |] eqn:Es; cbn in H; [|done..]. destruct (run vstep s2 o1) as [[s3 e3]| |] eqn:Er; cbn in H; [|done..]. injection H as <- <-.
  cbn [app vpushed]. rewrite Es, (IH _ _ _ o2 Er). destruct o; try done. by destruct (v_mid s !! t).
Qed.
Lemma guarded_own l : forall s, Forall vown l -> guarded vstep to_active s l.
Proof.
  induction l as [|o l IH]; intros s H; [done|]. inversion H as [|? ? Ho Hl]; subst. cbn [guarded]. split; [by destruct Ho as [->|[c ->]]|].
  destruct (vstep s o) as [[s1 e1]| |]; try done. by apply IH.
Qed.
Lemma guarded_compose {S O E} (step : S -> O -> res (S * list E)) ok o1 : forall s s1 e1 o2,
  guarded step ok s o1 -> run step s o1 = Ok (s1, e1) -> guarded step ok s1 o2 -> guarded step ok s (o1 ++ o2).
Proof.
  induction o1 as [|o o1 IH]; intros s s1 e1 o2 Hg H H2; cbn in *; [by injection H as <- <-|]. destruct Hg as [Hok Hg]. split; [done|].
  destruct (step s o) as [[s2 e2]| |]; cbn in H; [|done..]. destruct (run step s2 o1) as [[s3 e3]| |] eqn:Er; cbn in H; [|done..]. injection H as <- <-. by eapply IH.
Qed.
Lemma v_progress ops s e : guarded vstep to_active vinit ops -> run vstep vinit ops = Ok (s, e) -> v_mid s = ∅ ->
  exists l s' e', run vstep s l = Ok (s', e') /\ Forall vown l /\ vidle s' /\ dispatched e' = queued (c_queue (v_core s)) ++ c_inb (v_core s).
Proof.
  intros Hg H Hm. destruct s as [k mid sent act]. destruct (v_ends _ k mid sent act eq_refl) as (l & s' & e' & Hr & Hl & Hi & Hm'). exists l, s', e'. split_and!; [done..|].
  pose proof (run_compose _ _ _ _ _ _ _ _ H Hr) as HH. destruct (v_not_stuck _ _ _ (guarded_compose _ _ _ _ _ _ _ Hg H (guarded_own _ _ Hl)) HH Hi) as [E1 E2]; [cbn in Hm; congruence|].
  apply v_order in HH. rewrite E1, E2 in HH. cbn [queued omap list_omap app] in HH. rewrite app_nil_r in HH. rewrite (vpushed_app _ _ _ _ _ H), (vpushed_own l), app_nil_r in HH by done.
  pose proof (v_order _ _ _ H) as HO. rewrite dispatched_app, <-HO in HH. by apply app_inv_head in HH.
Qed.

(** A message in the inbound queue, no watcher of an active supervisor was sent to: no
    step of the loop, and no timer, takes it. *)
Lemma v_lost l : forall s s' e' x,
  c_inb (v_core s) = x -> v_sent s ∩ v_active s = ∅ ->
  (c_run (v_core s) = None \/ c_run (v_core s) = Some (PProc true)) ->
  Forall (fun o => vown o \/ (exists m, o = VLocal m) \/ exists ms, o = VTimer ms) l ->
  run vstep s l = Ok (s', e') -> c_inb (v_core s') = x.
Proof.
  induction l as [|o l IH]; intros s s' e' x Hx Hs Hr Hl H; [by injection H as <- <-|]. inversion Hl as [|? ? Ho Hl']; subst. cbn [run] in H.
  destruct (vstep s o) as [[s1 e1]| |] eqn:Es; cbn in H; [|done..]. destruct (run vstep s1 l) as [[s2 e2]| |] eqn:Er; cbn in H; [|done..]. injection H as <- <-.
  destruct Ho as [[->|[c ->]]|[[m ->]|[ms ->]]]; cbn in Es.
  - destruct (core_step (v_core s) false) as [k e3] eqn:Ec. injection Es as <- <-. unfold core_step in Ec. destruct Hr as [Hr|Hr]; rewrite Hr in Ec.
    + injection Ec as <- <-. destruct s. apply (IH _ _ _ _ eq_refl Hs (or_introl Hr) Hl' Er).
    + destruct (c_queue (v_core s)) as [|y q].
      * injection Ec as <- <-. refine (IH _ _ _ _ _ _ _ Hl' Er); [done|done|by left].
      * injection Ec as <- <-. refine (IH _ _ _ _ _ _ _ Hl' Er); [done|done|by right].
  - case_bool_decide as Hc; injection Es as <- <-; [|by apply (IH _ _ _ _ eq_refl Hs Hr Hl' Er)]. destruct Hc as (_ & H1 & H2).
    assert (c ∈ (∅ : gset N)) as []%not_elem_of_empty. rewrite <-Hs. by apply elem_of_intersection.
  - injection Es as <- <-. unfold core_local in Er. destruct Hr as [Hr|Hr]; rewrite Hr in Er.
    + refine (IH _ _ _ _ _ _ _ Hl' Er); [done|done|by left].
    + refine (IH _ _ _ _ _ _ _ Hl' Er); [done|done|by right].
  - case_bool_decide as Hc; injection Es as <- <-; [|by apply (IH _ _ _ _ eq_refl Hs Hr Hl' Er)]. refine (IH _ _ _ _ _ _ _ Hl' Er); [done|done|by right].
Qed.
