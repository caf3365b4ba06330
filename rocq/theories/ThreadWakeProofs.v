From stdpp Require Import base list gmap.
From Verif Require Import Base ThreadWakeModel ThreadWakeSpec.
Open Scope N_scope.

Record winv (s : wstate) : Prop := {
  wi_mutex : forall o, w_mutex s = Some o <-> in_critical s o;
  wi_wake : (w_pc s = LWait \/ (w_pc s = LSleep /\ w_notified s = false)) ->
    w_inb s 0 <> [] -> exists t, before_notify s t;
  wi_queue : w_pc s ∈ [LLock; LCheck; LWait; LSleep; LRelock true; LRelock false; LLast; LUnlock] -> w_queue s = []
}.

Lemma winv_init : winv winit.
Proof.
  split; simpl.
  - intros [|t]; split; try done.
    + intros H. exfalso. by repeat (apply elem_of_cons in H as [H|H]; [done|]); apply elem_of_nil in H.
    + unfold in_critical; cbn. rewrite lookup_empty. by intros [?|?].
  - by intros [?|[? ?]].
  - done.
Qed.

Ltac inl H := repeat (apply elem_of_cons in H as [H|H]; [try discriminate H|]); try by apply elem_of_nil in H.

Lemma mutex_unique s o o' : winv s -> in_critical s o -> in_critical s o' -> o = o'.
Proof. intros I H H'. apply (wi_mutex _ I) in H, H'. congruence. Qed.

Lemma no_critical s o : winv s -> w_mutex s = None -> ~ in_critical s o.
Proof. intros I H H'. apply (wi_mutex _ I) in H'. congruence. Qed.

Lemma winv_step s o s' e : winv s -> wstep s o = Ok (s', e) -> winv s'.
Proof.
  intros I. destruct s as [inb q mu enq pc nt].
  pose proof (wi_mutex _ I) as Im. pose proof (wi_wake _ I) as Iw. pose proof (wi_queue _ I) as Iq.
  unfold before_notify, in_critical in *; cbn in Im, Iw, Iq.
  destruct o as [t sup m|t|t|t|c| |]; simpl; intros H.
  - (* push *) unfold e_push in H; cbn in H. destruct (enq !! t) as [x|] eqn:Et; inversion H; subst; [done|].
    unfold set_enq, set_inb; cbn. split; unfold before_notify, in_critical; cbn.
    + intros [|t']; [apply (Im OwnLoop)|]. rewrite (Im (OwnThread t')); simpl.
      destruct (decide (t = t')) as [<-|]; [|by rewrite lookup_insert_ne].
      rewrite lookup_insert, Et. split; by intros [?|?].
    + intros _ _. exists t. rewrite lookup_insert. by left.
    + done.
  - (* lock *) unfold e_lock in H; cbn in H.
    destruct (enq !! t) as [[]|] eqn:Et; try (by inversion H; subst).
    destruct mu as [|]; inversion H; subst; [done|].
    unfold set_enq, set_mutex; cbn. split; unfold before_notify, in_critical; cbn.
    + intros o. split.
      * intros Ho; inversion Ho; subst. rewrite lookup_insert. by left.
      * destruct o as [|t'].
        -- intros Hl. pose proof (proj2 (Im OwnLoop) Hl). done.
        -- destruct (decide (t = t')) as [<-|]; [done|]. rewrite lookup_insert_ne by done.
           intros Hl. pose proof (proj2 (Im (OwnThread t')) Hl). done.
    + intros Hp Hn. exists t. rewrite lookup_insert. by right.
    + done.
  - (* notify *) unfold e_notify in H; cbn in H.
    destruct (enq !! t) as [[]|] eqn:Et; try (by inversion H; subst).
    assert (Hm : mu = Some (OwnThread t)) by (apply (Im (OwnThread t)); by left).
    assert (Hcrit : forall o, mu = Some o <->
      match o with OwnLoop => pc ∈ [LCheck; LWait; LLast; LUnlock]
        | OwnThread t' => <[t:=ENotified]> enq !! t' = Some ELocked \/ <[t:=ENotified]> enq !! t' = Some ENotified end).
    { intros [|t']; [apply (Im OwnLoop)|]. rewrite (Im (OwnThread t')); simpl.
      destruct (decide (t = t')) as [<-|]; [|by rewrite lookup_insert_ne].
      rewrite lookup_insert, Et. split; intros _; eauto. }
    destruct (decide (pc = LSleep)) as [->|Hpc]; inversion H; subst; clear H; split; unfold before_notify, in_critical; cbn; try done.
    + by intros [?|[? ?]].
    + intros [->|[? ?]]; [|done]. exfalso.
      assert (Some (OwnThread t) = Some OwnLoop) as [=]. apply (Im OwnLoop); simpl. set_solver.
  - (* unlock *) unfold e_unlock in H; cbn in H.
    destruct (enq !! t) as [[]|] eqn:Et; try (by inversion H; subst).
    assert (Hm : mu = Some (OwnThread t)) by (apply (Im (OwnThread t)); by right).
    inversion H; subst; clear H. split; unfold before_notify, in_critical; cbn.
    + intros o; split; [done|]. destruct o as [|t']; intros Hl.
      * pose proof (proj2 (Im OwnLoop) Hl). done.
      * destruct (decide (t = t')) as [<-|]; [rewrite lookup_delete in Hl; by destruct Hl|].
        rewrite lookup_delete_ne in Hl by done.
        pose proof (proj2 (Im (OwnThread t')) Hl). congruence.
    + intros Hp Hn. destruct (Iw Hp Hn) as [t' Ht']. exists t'.
      destruct (decide (t = t')) as [<-|]; [rewrite Et in Ht'; by destruct Ht'|].
      by rewrite lookup_delete_ne.
    + done.
  - (* loop *) inversion H as [H1]; clear H. 
    assert (Hno : mu = None -> forall t', ~ (enq !! t' = Some ELocked \/ enq !! t' = Some ENotified)).
    { intros -> t' Hl. by pose proof (proj2 (Im (OwnThread t')) Hl). }
    assert (Hth : forall t', mu = Some (OwnThread t') <-> enq !! t' = Some ELocked \/ enq !! t' = Some ENotified).
    { intros t'. apply (Im (OwnThread t')). }
    assert (Hlp : mu = Some OwnLoop <-> pc ∈ [LCheck; LWait; LLast; LUnlock]) by apply (Im OwnLoop).
    assert (Hin : pc ∈ [LCheck; LWait; LLast; LUnlock] \/ pc ∉ [LCheck; LWait; LLast; LUnlock])
      by (destruct (decide (pc ∈ [LCheck; LWait; LLast; LUnlock])); auto).
    clear Im I. unfold l_step in H1; cbn in H1.
    assert (Hkeep : forall pc', pc' ∉ [LCheck; LWait; LLast; LUnlock] -> pc ∉ [LCheck; LWait; LLast; LUnlock] ->
      forall o, mu = Some o <-> match o with OwnLoop => pc' ∈ [LCheck; LWait; LLast; LUnlock]
        | OwnThread t => enq !! t = Some ELocked \/ enq !! t = Some ENotified end).
    { intros pc' Hn Hn' [|t']; [|apply Hth]. rewrite Hlp. split; done. }
    assert (Hown : forall pc', pc' ∈ [LCheck; LWait; LLast; LUnlock] -> mu = Some OwnLoop ->
      forall o, mu = Some o <-> match o with OwnLoop => pc' ∈ [LCheck; LWait; LLast; LUnlock]
        | OwnThread t => enq !! t = Some ELocked \/ enq !! t = Some ENotified end).
    { intros pc' Hn Hn' [|t']; [|apply Hth]. split; congruence. }
    assert (Hget : forall pc', pc' ∈ [LCheck; LWait; LLast; LUnlock] -> mu = None ->
      forall o, Some OwnLoop = Some o <-> match o with OwnLoop => pc' ∈ [LCheck; LWait; LLast; LUnlock]
        | OwnThread t => enq !! t = Some ELocked \/ enq !! t = Some ENotified end).
    { intros pc' Hn Hn' [|t']; [done|]. split; [done|]. intros Hx. by destruct (Hno Hn' t'). }
    assert (Hrel : forall pc', pc' ∉ [LCheck; LWait; LLast; LUnlock] -> mu = Some OwnLoop ->
      forall o, None = Some o <-> match o with OwnLoop => pc' ∈ [LCheck; LWait; LLast; LUnlock]
        | OwnThread t => enq !! t = Some ELocked \/ enq !! t = Some ENotified end).
    { intros pc' Hn Hn' [|t']; [done|]. split; [done|]. intros Hx. apply Hth in Hx. congruence. }
    destruct pc; cbn in H1.
    + inversion H1; subst. split; unfold before_notify, in_critical; cbn; [|by destruct c; intros [?|[? ?]]|done].
      apply Hkeep; [|set_solver]. destruct c; set_solver.
    + destruct (inb 0) as [|m rest] eqn:Ei; inversion H1; subst; (split; unfold before_notify, in_critical; cbn; [|by intros [?|[? ?]]|]).
      * apply Hkeep; set_solver.
      * intros Hx; inl Hx.
      * apply Hkeep; set_solver.
      * intros Hx; inl Hx.
    + inversion H1; subst. split; unfold before_notify, in_critical; cbn; [|by destruct (c && _); intros [?|[? ?]]|].
      * apply Hkeep; [|set_solver]. destruct (c && _); set_solver.
      * intros Hx. destruct (c && _); inl Hx.
    + inversion H1; subst. split; unfold before_notify, in_critical; cbn; [|by case_bool_decide; intros [?|[? ?]]|].
      * apply Hkeep; [|set_solver]. case_bool_decide; set_solver.
      * case_bool_decide; [done|]. intros Hx. inl Hx.
    + destruct mu eqn:Em; inversion H1; subst; (split; unfold before_notify, in_critical; cbn; [|try by intros [?|[? ?]]|]).
      * apply Hkeep; set_solver.
      * done.
      * apply Hget; [set_solver|done].
      * intros _. apply Iq. set_solver.
    + assert (Hl : mu = Some OwnLoop) by (apply Hlp; set_solver).
      inversion H1; subst. split; unfold before_notify, in_critical; cbn.
      * apply Hown; [|done]. case_bool_decide; set_solver.
      * case_bool_decide; [|by intros [?|[? ?]]]. done.
      * intros _. apply Iq. set_solver.
    + assert (Hl : mu = Some OwnLoop) by (apply Hlp; set_solver).
      inversion H1; subst. split; unfold before_notify, in_critical; cbn.
      * apply Hrel; [set_solver|done].
      * intros _. apply Iw. by left.
      * intros _. apply Iq. set_solver.
    + destruct (c || nt) eqn:Ec; inversion H1; subst; (split; unfold before_notify, in_critical; cbn).
      * apply Hkeep; set_solver.
      * by intros [?|[? ?]].
      * intros _. apply Iq. set_solver.
      * apply Hkeep; set_solver.
      * done.
      * done.
    + destruct mu eqn:Em; inversion H1; subst; (split; unfold before_notify, in_critical; cbn).
      * apply Hkeep; set_solver.
      * by intros [?|[? ?]].
      * done.
      * apply Hget; [destruct timeout; set_solver|done].
      * destruct timeout; by intros [?|[? ?]].
      * intros _. apply Iq. destruct timeout; set_solver.
    + assert (Hl : mu = Some OwnLoop) by (apply Hlp; set_solver).
      inversion H1; subst. split; unfold before_notify, in_critical; cbn.
      * apply Hown; [set_solver|done].
      * by intros [?|[? ?]].
      * intros _. apply Iq. set_solver.
    + assert (Hl : mu = Some OwnLoop) by (apply Hlp; set_solver).
      inversion H1; subst. split; unfold before_notify, in_critical; cbn.
      * apply Hrel; [set_solver|done].
      * by intros [?|[? ?]].
      * intros Hx. inl Hx.
    + inversion H1; subst. split; unfold before_notify, in_critical; cbn.
      * apply Hkeep; set_solver.
      * by intros [?|[? ?]].
      * intros Hx. inl Hx.
    + inversion H1; subst. split; unfold before_notify, in_critical; cbn; [apply Hkeep; set_solver|done|done].
  - (* timeout *) destruct (decide (pc = LSleep)) as [->|Hpc]; inversion H; subst; [|done].
    split; unfold before_notify, in_critical; cbn.
    + intros [|t']; [|apply (Im (OwnThread t'))]. rewrite (Im OwnLoop); simpl. split; intros Hx; inl Hx.
    + by intros [?|[? ?]].
    + intros _. apply Iq. set_solver.
  - (* intercept *) unfold l_check in H; cbn in H. destruct pc; inversion H; subst; try done.
    split; unfold before_notify, in_critical; cbn.
    + intros [|t']; [apply (Im OwnLoop)|apply (Im (OwnThread t'))].
    + by intros [?|[? ?]].
    + intros Hx; inl Hx.
Qed.

Lemma winv_run ops s e : run wstep winit ops = Ok (s, e) -> winv s.
Proof. apply (run_inv wstep winv winv_step). apply winv_init. Qed.

Lemma run_total ops s : exists s' e, run wstep s ops = Ok (s', e).
Proof.
  destruct (run_safe wstep (fun _ => True)) with (ops := ops) (s := s) as (s' & e & H & _); eauto.
  intros s0 o _. destruct o; simpl; eauto. destruct (l_step s0 choice); eauto.
Qed.

(** No lost wake-up *)
Lemma no_lost_wakeup ops s e : run wstep winit ops = Ok (s, e) ->
  asleep s -> w_inb s 0 <> [] -> exists t, before_notify s t.
Proof. intros H [Hp Hn] Hi. apply (wi_wake _ (winv_run _ _ _ H)); auto. Qed.

Lemma mutual_exclusion ops s e o o' : run wstep winit ops = Ok (s, e) ->
  in_critical s o -> in_critical s o' -> o = o'.
Proof. intros H. apply mutex_unique. by eapply winv_run. Qed.

(** Order: what was pushed is what is dispatched, queued or inbound. *)
Lemma order_gen ops : forall s s' e,
  run wstep s ops = Ok (s', e) ->
  dispatched e ++ w_queue s' ++ w_inb s' 0 = w_queue s ++ w_inb s 0 ++ pushed 0 s ops.
Proof.
  induction ops as [|o ops IH]; intros s s' e H.
  - inversion H; subst; simpl. by rewrite app_nil_r.
  - cbn [run] in H. destruct (wstep s o) as [[s1 e1]| |] eqn:Hs; cbn [rbind] in H; try discriminate.
    destruct (run wstep s1 ops) as [[s2 e2]| |] eqn:Hr; cbn [rbind] in H; try discriminate.
    inversion H; subst. pose proof (IH _ _ _ Hr) as IH'. clear IH.
    assert (Hone : dispatched e1 ++ w_queue s1 ++ w_inb s1 0 ++ pushed 0 s1 ops = w_queue s ++ w_inb s 0 ++ pushed 0 s (o :: ops)).
    { cbn [pushed]. rewrite Hs.
      destruct s as [inb q mu enq pc nt]. destruct o as [t sup m|t|t|t|c| |]; cbn in Hs.
      - unfold e_push in Hs; cbn in *. destruct (enq !! t) as [x|] eqn:Et; inversion Hs; subst; clear Hs; cbn.
        + try rewrite bool_decide_eq_false_2 by congruence. done.
        + try rewrite bool_decide_eq_true_2 by done. cbn.
          destruct sup as [|p]; [|done]. cbn. by rewrite <-!(assoc_L (++)).
      - unfold e_lock in Hs; cbn in *. destruct (enq !! t) as [[]|], mu; by inversion Hs; subst.
      - unfold e_notify in Hs; cbn in *. destruct (enq !! t) as [[]|], (decide (pc = LSleep)); by inversion Hs; subst.
      - unfold e_unlock in Hs; cbn in *. destruct (enq !! t) as [[]|]; by inversion Hs; subst.
      - inversion Hs as [Hl]; clear Hs. unfold l_step in Hl; cbn in Hl.
        destruct pc; cbn in Hl.
        + inversion Hl; subst; cbn. unfold dispatched. rewrite <-list_fmap_compose.
          f_equal. rewrite <-(list_fmap_id q) at 2. apply list_fmap_ext. done.
        + destruct (inb 0) as [|m rest] eqn:Ei; inversion Hl; subst; cbn; rewrite ?Ei; [done|].
          by rewrite <-!(assoc_L (++)).
        + by inversion Hl; subst.
        + by inversion Hl; subst.
        + destruct mu; by inversion Hl; subst.
        + by inversion Hl; subst.
        + by inversion Hl; subst.
        + destruct (c || nt); by inversion Hl; subst.
        + destruct mu; by inversion Hl; subst.
        + by inversion Hl; subst.
        + by inversion Hl; subst.
        + by inversion Hl; subst.
        + by inversion Hl; subst.
      - destruct (decide (pc = LSleep)); by inversion Hs; subst.
      - unfold l_check in Hs; cbn in Hs. destruct pc; inversion Hs; subst; cbn; try done.
        by rewrite <-!(assoc_L (++)). }
    rewrite <-Hone. unfold dispatched in *. rewrite fmap_app, <-!(assoc_L (++)). by rewrite IH'.
Qed.

Lemma order ops s e : run wstep winit ops = Ok (s, e) ->
  dispatched e ++ w_queue s ++ w_inb s 0 = pushed 0 winit ops.
Proof. intros H. apply order_gen in H. done. Qed.

(** Progress: once nobody is inside [enqueue], a loop running alone dispatches
    everything. *)
Definition loops (n : nat) : list wop := replicate n (WLoop false).

Lemma loop1 s n s1 : l_step s false = (s1, []) ->
  run wstep s (loops (S n)) = run wstep s1 (loops n).
Proof.
  intros H. unfold loops. simpl. rewrite H. simpl.
  destruct (run wstep s1 (replicate n (WLoop false))) as [[? ?]| |]; done.
Qed.

Lemma drain_pop s n : w_pc s = LPop -> length (w_inb s 0) = n ->
  exists s', run wstep s (loops (S n)) = Ok (s', []) /\ w_pc s' = LSpin /\
    w_queue s' = w_queue s ++ w_inb s 0 /\ w_inb s' 0 = [].
Proof.
  revert s. induction n as [|n IH]; intros s Hpc Hlen.
  - apply nil_length_inv in Hlen. eexists. split.
    + simpl. unfold l_step. rewrite Hpc, Hlen. simpl. done.
    + cbn. rewrite Hlen, app_nil_r. done.
  - destruct (w_inb s 0) as [|m rest] eqn:Ei; [done|]. simpl in Hlen.
    destruct (IH (set_queue (set_inb s 0 rest) (w_queue s ++ [m]))) as (s' & Hr & H1 & H2 & H3); [done|cbn; lia|].
    cbn in H2. exists s'. split; [|split; [done|split; [|done]]].
    + rewrite (loop1 _ _ (set_queue (set_inb s 0 rest) (w_queue s ++ [m]))); [done|]. unfold l_step. by rewrite Hpc, Ei.
    + rewrite H2. by rewrite <-(assoc_L (++)).
Qed.

Lemma loops_plus n m : loops (n + m) = loops n ++ loops m.
Proof. apply replicate_add. Qed.

Lemma run_loops_app s n m s1 e1 s2 e2 :
  run wstep s (loops n) = Ok (s1, e1) -> run wstep s1 (loops m) = Ok (s2, e2) ->
  run wstep s (loops (n + m)) = Ok (s2, e1 ++ e2).
Proof. intros H1 H2. rewrite loops_plus, run_app, H1. cbn [rbind]. by rewrite H2. Qed.

Lemma dispatched_fmap q : dispatched (WDispatched <$> q) = q.
Proof. unfold dispatched. rewrite <-list_fmap_compose. by induction q; simpl; f_equal. Qed.

Lemma progress_process s : w_pc s = LProcess ->
  exists n s' e, run wstep s (loops n) = Ok (s', e) /\ dispatched e = w_queue s ++ w_inb s 0 /\
    w_queue s' = [] /\ w_inb s' 0 = [].
Proof.
  intros Hpc.
  assert (H1 : run wstep s (loops 1) = Ok (set_pc (set_queue s []) LPop, WDispatched <$> w_queue s)).
  { simpl. unfold l_step. rewrite Hpc. simpl. by rewrite app_nil_r. }
  destruct (drain_pop (set_pc (set_queue s []) LPop) (length (w_inb s 0))) as (s2 & H2 & P2 & Q2 & I2); [done|done|].
  cbn in Q2. pose proof (run_loops_app _ _ _ _ _ _ _ H1 H2) as H12. rewrite app_nil_r in H12.
  destruct (w_inb s 0) as [|m rest] eqn:Ei.
  - eexists _, _, _. split; [exact H12|]. rewrite dispatched_fmap, app_nil_r. split; [done|]. by rewrite Q2.
  - assert (H3 : run wstep s2 (loops 4) = Ok (set_pc (set_queue s2 []) LPop, WDispatched <$> (m :: rest))).
    { simpl. unfold l_step at 1. rewrite P2. cbn. rewrite Q2. cbn.
      rewrite ?Q2. cbn. by rewrite ?app_nil_r. }
    pose proof (run_loops_app _ _ _ _ _ _ _ H12 H3) as H123.
    eexists _, _, _. split; [exact H123|].
    unfold dispatched. rewrite fmap_app. fold (dispatched (WDispatched <$> w_queue s)). fold (dispatched (WDispatched <$> (m::rest))).
    rewrite !dispatched_fmap. done.
Qed.

Lemma to_process s : winv s -> w_enq s = ∅ -> w_pc s <> LEnd -> w_inb s 0 <> [] ->
  exists n s', run wstep s (loops n) = Ok (s', []) /\ w_pc s' = LProcess /\
    w_queue s' ++ w_inb s' 0 = w_queue s ++ w_inb s 0.
Proof.
  intros I He Hend Hi.
  assert (Hw : asleep s -> False).
  { intros [Hp Hn]. destruct (wi_wake _ I (or_intror (conj Hp Hn)) Hi) as [t [H|H]]; by rewrite He in H. }
  assert (Hm : w_pc s ∉ [LCheck; LWait; LLast; LUnlock] -> w_mutex s = None).
  { intros Hc. destruct (w_mutex s) as [o|] eqn:Em; [|done]. apply (wi_mutex _ I) in Em.
    destruct o as [|t]; simpl in Em; [done|]. rewrite He in Em. by destruct Em. }
  assert (Hqe := wi_queue _ I).
  destruct s as [inb q mu enq pc nt]. unfold asleep in Hw. cbn in *.
  assert (Hemp : bool_decide (inb 0 = []) = false) by (by apply bool_decide_eq_false).
  (* from LTime *)
  assert (Htime : forall inb q mu nt, run wstep (WState inb q mu enq LTime nt) (loops 1) = Ok (WState inb q mu enq LProcess nt, [])) by done.
  assert (Hunl : forall q mu nt, run wstep (WState inb q mu enq LUnlock nt) (loops 2) = Ok (WState inb q None enq LProcess nt, [])) by done.
  assert (Hchk : forall q mu nt, run wstep (WState inb q mu enq LCheck nt) (loops 3) = Ok (WState inb q None enq LProcess nt, [])).
  { intros. simpl. unfold l_step at 1. cbn. rewrite Hemp. done. }
  assert (Hlast : forall q mu nt, run wstep (WState inb q mu enq LLast nt) (loops 3) = Ok (WState inb q None enq LProcess nt, [])) by done.
  assert (Hrel : forall b q nt, run wstep (WState inb q None enq (LRelock b) nt) (loops 4) = Ok (WState inb q None enq LProcess nt, [])).
  { intros b q0 nt0. erewrite (loop1 _ 3) by reflexivity. unfold set_pc, set_mutex; cbn [w_inb w_queue w_enq w_notified w_mutex].
    destruct b; [apply Hlast|apply Hchk]. }
  assert (Hlock : forall q nt, run wstep (WState inb q None enq LLock nt) (loops 4) = Ok (WState inb q None enq LProcess nt, [])).
  { intros q0 nt0. erewrite (loop1 _ 3) by reflexivity. apply Hchk. }
  assert (Htest : forall q nt, exists n, run wstep (WState inb q None enq LTest nt) (loops n) = Ok (WState inb q None enq LProcess nt, [])).
  { intros q0 nt0. destruct (bool_decide (q0 = [])) eqn:Eq.
    - exists 5%nat. rewrite (loop1 _ 4 (WState inb q0 None enq LLock nt0)); [apply Hlock|]. unfold l_step. cbn [w_pc w_queue]. by rewrite Eq.
    - exists 2%nat. simpl. unfold l_step at 1. cbn [w_pc w_queue]. rewrite Eq. done. }
  destruct pc.
  - exists 0%nat. eexists. split; [done|]. done.
  - (* LPop *) rewrite (Hm ltac:(set_solver)) in *.
    destruct (drain_pop (WState inb q None enq LPop nt) (length (inb 0)) eq_refl eq_refl) as (s2 & H2 & P2 & Q2 & I2). cbn in Q2.
    assert (Hq2 : w_queue s2 <> []). { rewrite Q2. intros Hx. apply app_nil in Hx as [_ Hx]. done. }
    assert (H3 : run wstep s2 (loops 3) = Ok (set_pc s2 LProcess, [])).
    { rewrite (loop1 _ 2 (set_pc s2 LTest)) by (unfold l_step; by rewrite P2).
      rewrite (loop1 _ 1 (set_pc s2 LTime)); [done|]. unfold l_step. cbn [w_pc set_pc w_queue].
      by rewrite bool_decide_eq_false_2. }
    pose proof (run_loops_app _ _ _ _ _ _ _ H2 H3) as H4. eexists _, _. split; [exact H4|]. cbn. rewrite Q2, I2, app_nil_r. done.
  - rewrite (Hm ltac:(set_solver)) in *. destruct (Htest q nt) as [n Hn]. exists (S n). eexists.
    split; [|split; [|]]; [| |]. { erewrite (loop1 _ n) by reflexivity. exact Hn. } all: done.
  - rewrite (Hm ltac:(set_solver)) in *. destruct (Htest q nt) as [n Hn]. eexists _, _. split; [exact Hn|]. done.
  - rewrite (Hm ltac:(set_solver)) in *. eexists _, _. split; [apply Hlock|]. done.
  - eexists _, _. split; [apply Hchk|]. done.
  - (* LWait *) exfalso. destruct (wi_wake _ I (or_introl eq_refl) Hi) as [t [H|H]]; cbn in H; by rewrite He in H.
  - destruct nt; [|by destruct Hw]. rewrite (Hm ltac:(set_solver)) in *.
    exists 5%nat. eexists. split; [|split].
    { erewrite (loop1 _ 4) by reflexivity. apply Hrel. } all: done.
  - rewrite (Hm ltac:(set_solver)) in *. eexists _, _. split; [apply Hrel|]. done.
  - eexists _, _. split; [apply Hlast|]. done.
  - eexists _, _. split; [apply Hunl|]. done.
  - eexists _, _. split; [apply Htime|]. done.
  - done.
Qed.

Lemma progress ops s e : run wstep winit ops = Ok (s, e) ->
  w_enq s = ∅ -> w_pc s <> LEnd -> w_inb s 0 <> [] ->
  exists n s' e', run wstep s (loops n) = Ok (s', e') /\ dispatched e' = w_queue s ++ w_inb s 0 /\
    w_queue s' = [] /\ w_inb s' 0 = [].
Proof.
  intros Hr He Hend Hi. destruct (to_process s (winv_run _ _ _ Hr) He Hend Hi) as (n & s1 & H1 & P1 & Q1).
  destruct (progress_process s1 P1) as (m & s2 & e2 & H2 & D2 & ? & ?).
  exists (n + m)%nat, s2, e2. split; [|by rewrite D2, Q1].
  by apply (run_loops_app _ _ _ _ _ _ _ H1 H2).
Qed.

(** A child supervisor has its own inbound queue, which nobody drains. *)
Lemma child_grows ops : forall s s' e sup, sup <> 0 ->
  run wstep s ops = Ok (s', e) -> w_inb s' sup = w_inb s sup ++ pushed sup s ops.
Proof.
  induction ops as [|o ops IH]; intros s s' e sup Hsup H.
  - inversion H; subst; simpl. by rewrite app_nil_r.
  - cbn [run] in H. destruct (wstep s o) as [[s1 e1]| |] eqn:Hs; cbn [rbind] in H; try discriminate.
    destruct (run wstep s1 ops) as [[s2 e2]| |] eqn:Hr; cbn [rbind] in H; try discriminate.
    inversion H; subst. rewrite (IH _ _ _ _ Hsup Hr). clear IH Hr H.
    cbn [pushed]. rewrite Hs. destruct s as [inb q mu enq pc nt].
    apply N.eqb_neq in Hsup.
    destruct o as [t sup' m|t|t|t|c| |]; cbn in Hs.
    + unfold e_push in Hs; cbn in *. destruct (enq !! t) as [x|] eqn:Et; inversion Hs; subst; clear Hs; cbn.
      * try rewrite bool_decide_eq_false_2 by congruence. done.
      * try rewrite bool_decide_eq_true_2 by done. cbn. rewrite (N.eqb_sym sup' sup).
        destruct (N.eqb_spec sup sup') as [->|]; [|done]. by rewrite <-!(assoc_L (++)).
    + unfold e_lock in Hs; cbn in *. destruct (enq !! t) as [[]|], mu; by inversion Hs; subst.
    + unfold e_notify in Hs; cbn in *. destruct (enq !! t) as [[]|], (decide (pc = LSleep)); by inversion Hs; subst.
    + unfold e_unlock in Hs; cbn in *. destruct (enq !! t) as [[]|]; by inversion Hs; subst.
    + inversion Hs as [Hl]; clear Hs. unfold l_step in Hl; cbn in Hl.
      assert (w_inb s1 sup = inb sup); [|by f_equal].
      destruct pc; cbn in Hl.
      * by inversion Hl; subst.
      * destruct (inb 0) as [|m rest] eqn:Ei; inversion Hl; subst; cbn; rewrite ?Hsup; done.
      * by inversion Hl; subst.
      * by inversion Hl; subst.
      * destruct mu; by inversion Hl; subst.
      * by inversion Hl; subst.
      * by inversion Hl; subst.
      * destruct (c || nt); by inversion Hl; subst.
      * destruct mu; by inversion Hl; subst.
      * by inversion Hl; subst.
      * by inversion Hl; subst.
      * by inversion Hl; subst.
      * by inversion Hl; subst.
    + destruct (decide (pc = LSleep)); by inversion Hs; subst.
    + unfold l_check in Hs; cbn in Hs. destruct pc; inversion Hs; subst; cbn; rewrite ?Hsup; done.
Qed.

Lemma child_stuck ops s e sup : sup <> 0 -> run wstep winit ops = Ok (s, e) ->
  w_inb s sup = pushed sup winit ops.
Proof. intros Hs H. by rewrite (child_grows _ _ _ _ _ Hs H). Qed.
