(** The properties C20-C23 and C30-C33 of the child manager. *)
From stdpp Require Import base list gmap.
From Verif Require Import Base ChildMgrModel ChildMgrSpec ChildMgrProofs ChildMgrTrace.
Open Scope N_scope.

Ltac gm := match goal with |- context [if ?b then _ else _] => destruct b end.

Global Instance scfg_eq_dec : EqDecision scfg.
Proof. solve_decision. Defined.
Global Instance cevent_eq_dec : EqDecision cevent.
Proof. solve_decision. Defined.

Lemma run_split {S O E} (step : S -> O -> res (S * list E)) ops : forall s0 s' ev ev1 x ev2,
  run step s0 ops = Ok (s', ev) -> ev = ev1 ++ x :: ev2 ->
  exists ops1 o ops2 sA evA sB e1 e2 evB, ops = ops1 ++ o :: ops2 /\ run step s0 ops1 = Ok (sA, evA) /\
    step sA o = Ok (sB, e1 ++ x :: e2) /\ run step sB ops2 = Ok (s', evB) /\ ev1 = evA ++ e1 /\ ev2 = e2 ++ evB.
Proof.
  induction ops as [|o ops IH]; intros s0 s' ev ev1 x ev2 H Heq; cbn [run] in H.
  - inversion H; subst. by destruct ev1.
  - destruct (step s0 o) as [[s1 e1]| |] eqn:E1; [|done..]. cbn [rbind] in H.
    destruct (run step s1 ops) as [[s2 e2]| |] eqn:E2; cbn in H; [|done..]. inversion H; subst s2 ev. clear H.
    apply app_eq_inv in H2 as [(k & H1 & H2)|(k & H1 & H2)].
    + destruct k as [|y k].
      * rewrite app_nil_r in H1. subst e1. cbn in H2.
        destruct (IH _ _ _ [] x ev2 E2 (eq_sym H2)) as (ops1 & o' & ops2 & sA & evA & sB & f1 & f2 & evB & -> & HA & HB & HC & HD & HE).
        exists (o :: ops1), o', ops2, sA, (ev1 ++ evA), sB, f1, f2, evB. split_and!; try done.
        -- cbn [run]. rewrite E1. cbn [rbind]. rewrite HA. done.
        -- rewrite <-(assoc_L (++)), <-HD. by rewrite app_nil_r.
      * cbn in H2. inversion H2; subst. exists [], o, ops, s0, [], s1, ev1, k, e2. by split_and!.
    + subst. destruct (IH _ _ _ k x ev2 E2 eq_refl) as (ops1 & o' & ops2 & sA & evA & sB & f1 & f2 & evB & -> & HA & HB & HC & HD & HE).
      exists (o :: ops1), o', ops2, sA, (e1 ++ evA), sB, f1, f2, evB. split_and!; try done.
      * cbn [run]. rewrite E1. cbn [rbind]. rewrite HA. done.
      * subst. by rewrite (assoc_L (++)).
Qed.

(** A spawner without an active entry never comes back. *)
Definition dead (k : N) (s : cstate) : Prop :=
  k < cm_sids s /\ forall a i, cm_map s !! a = Some i -> ci_sid i = Some k -> ci_active i = false.
Lemma dead_move F k s e s' : move F s e s' -> cinv s -> dead k s -> dead k s' /\ forall t, EAttempt k t ∉ e.
Proof.
  intros Hmv Hv [Hk Hd]. pose proof (move_origin _ _ _ _ Hmv Hv) as Ho. pose proof (move_events _ _ _ _ Hmv Hv) as He.
  rewrite Forall_forall in He. destruct (move_mono _ _ _ _ Hmv) as (_ & Hs & _).
  split; [split; [lia|]|].
  - intros b j Hb Hsid. destruct (Ho _ _ Hb) as [j0 Hj E1 _ _ _ _ _ E2|a j0 k0 Hj _ Hac E1 E2| |_ E1].
    + destruct (ci_active j) eqn:Ej; [|done]. specialize (E2 eq_refl). rewrite (Hd _ _ Hj) in E2; [done|congruence].
    + exfalso. rewrite (Hd _ _ Hj) in Hac; [done|congruence].
    + congruence.
    + assert (k = cm_sids s) by congruence. lia.
  - intros t Hin. apply He in Hin as (_ & _ & a & i & _ & Hm & Hac & Hsid). rewrite (Hd _ _ Hm Hsid) in Hac. done.
Qed.
Lemma dead_moves F k s e s' : moves F s e s' -> cinv s -> dead k s -> forall t, EAttempt k t ∉ e.
Proof.
  induction 1 as [s|s e s1 e1 s2 Hm Hms IH]; intros Hv Hd t Hin; [by apply elem_of_nil in Hin|].
  destruct (dead_move _ _ _ _ _ Hm Hv Hd) as [Hd' Hno]. apply elem_of_app in Hin as [Hin|Hin]; [by eapply Hno|].
  eapply IH; [by eapply cinv_move|done|exact Hin].
Qed.

(** While the supervisor shuts down every factory call answers an earlier message. *)
Lemma take_first_length a l q : take_first a l = Some q -> length l = S (length q).
Proof.
  revert q. induction l as [|x l IH]; intros q H; [done|]. cbn in H. destruct (x =? a); [by inversion H|].
  destruct (take_first a l); inversion H. cbn. by rewrite (IH l0).
Qed.
Lemma down_move F s e s' : move F s e s' -> cinv s -> 5 <= rank (cm_state s) ->
  5 <= rank (cm_state s') /\
  count is_any_attempt e + N.of_nat (length (cm_spawnq s')) <= N.of_nat (length (cm_spawnq s)) + count is_spawner e.
Proof.
  intros Hmv Hv Hr. destruct Hmv as [s s' e Hqr Hqe|s|s cfg|s a' q Hq'|s a' q i1 k' Hq' Hm' Hact Hk'|s a' q i1 k' Hq' Hm' Hact Hk'|s a' q i1 k' HF' Hq' Hm' Hact Hk'
    |s a' i1 c abn ask Hm' Hc|s a' i1 c abn ask k' i' Hm' Hc Hk' Hr' Hn|s a' i1 c abn ask k' i' HF' Hm' Hc Hk' Hr' Hn
    |s id key i1 d' Hs Hm' Hti Hd' Hr'|s id key i1 Hs Hm'|s a' i1 c Hm' Hc H0 Hsh|s i1 Hm' Hsh]; try lia;
    try (apply take_first_length in Hq'); unfold count.
  - split; [by apply Hqr|]. rewrite (qr_q _ _ _ Hqr). assert (count is_any_attempt e = 0) as Hz; [|unfold count in Hz; lia].
    apply count_zero. intros x Hx. apply (quiet_not _ _ Hqe) in Hx. by destruct x.
  - cbn. split; [done|lia].
  - cbn. rewrite app_length. cbn. split; [done|lia].
  - cbn. split; [done|lia].
  - cbn. split; [done|lia].
  - cbn. split; [done|lia].
  - cbn. split; [done|lia].
  - cbn. split; [done|lia].
  - cbn. split; [done|lia].
  - cbn. split; [done|lia].
  - assert (count is_any_attempt (request_shutdown_all s).2 = 0) as Hz.
    { apply count_zero. intros x Hx. apply ask_events_in in Hx as [(c & a & i & -> & _)| ->]; done. }
    unfold count in Hz. rewrite Hz. destruct (ask_all_eq s) as [y ->]. cbn [fst cm_spawnq cm_state set_map set_timing set_shutout set_initout]. split; [done|lia].
Qed.
Lemma down_moves F s e s' : moves F s e s' -> cinv s -> 5 <= rank (cm_state s) ->
  count is_any_attempt e + N.of_nat (length (cm_spawnq s')) <= N.of_nat (length (cm_spawnq s)) + count is_spawner e.
Proof.
  induction 1 as [s|s e s1 e1 s2 Hm Hms IH]; intros Hv Hr; [unfold count; cbn; lia|].
  destruct (down_move _ _ _ _ Hm Hv Hr) as [Hr' H1]. specialize (IH (cinv_move _ _ _ _ Hm Hv) Hr'). rewrite !count_app. lia.
Qed.

Section facts.
Context (hp : bool) (policy : spolicy) (sync : bool).
Notation step := (cstep hp policy sync).
Notation reach ops s ev := (run step (cinit hp) ops = Ok (s, ev)).

Lemma reach_all (F : Prop) ops s ev : reach ops s ev -> (F -> guarded step fresh_clock (cinit hp) ops) -> allinv F s ev.
Proof.
  intros H HF. rewrite <-(app_nil_l ev). eapply allinv_moves; [|apply allinv_init].
  eapply run_moves; [apply cinv_init|done|done].
Qed.
Lemma reach_inv ops s ev : reach ops s ev -> allinv False s ev.
Proof. intros H. by eapply reach_all. Qed.
Lemma reach_moves ops s ev : reach ops s ev -> moves False (cinit hp) ev s.
Proof. intros H. eapply run_moves; [apply cinv_init|done|done]. Qed.

(** C20 *)
Lemma spawner_bound ops s ev k cfg : reach ops s ev -> ESpawner k cfg ∈ ev ->
  (0 < sc_max cfg -> count (is_instance k) ev <= sc_max cfg) /\ (sc_policy cfg = RNever -> count (is_instance k) ev <= 1).
Proof.
  intros H Hin. destruct (reach_inv _ _ _ H) as [_ Hk _ _]. pose proof (k_inst _ _ Hk k). split; intros Hx.
  - pose proof (k_max _ _ Hk _ _ Hin Hx). lia.
  - pose proof (k_never _ _ Hk _ _ Hin Hx). lia.
Qed.
Lemma spawner_attempts ops s ev k cfg : reach ops s ev -> ESpawner k cfg ∈ ev ->
  (0 < sc_max cfg -> count (is_attempt k) ev <= sc_max cfg) /\ (sc_policy cfg = RNever -> count (is_attempt k) ev <= 1).
Proof.
  intros H Hin. destruct (reach_inv _ _ _ H) as [_ Hk _ _]. split; intros Hx.
  - by apply (k_max _ _ Hk _ _ Hin Hx).
  - by apply (k_never _ _ Hk _ _ Hin Hx).
Qed.

(** C21 *)
Lemma no_restart ops s ev ev1 ev2 k cfg c abn ask t : reach ops s ev ->
  ev = ev1 ++ ERemoved c (Some k) abn ask :: ev2 -> ESpawner k cfg ∈ ev -> EAttempt k t ∈ ev2 -> allowed cfg abn ask = true.
Proof.
  intros H Heq Hsp Hat. destruct (allowed cfg abn ask) eqn:Hal; [done|]. exfalso.
  pose proof (reach_inv _ _ _ H) as [_ Hkk _ _].
  destruct (moves_split _ _ _ _ (reach_moves _ _ _ H) _ _ _ Heq) as (evA & sA & e1 & e2 & sB & evB & HA & Hmv & HB & -> & ->).
  destruct (allinv_moves _ _ _ _ _ HA (allinv_init _ _)) as [Hv Hk _ _]. cbn in Hk.
  pose proof (move_events _ _ _ _ Hmv Hv) as He. rewrite Forall_forall in He.
  destruct (He (ERemoved c (Some k) abn ask)) as (i & Hi & Ha & Hs & Hx & Hz & _).
  { apply elem_of_app. right. left. }
  cbn in Hz.
  assert (Hcfg : ci_cfg i = cfg).
  { eapply (k_uniq _ _ Hkk k); [|done]. subst ev. rewrite <-(assoc_L (++)). apply elem_of_app. left. by eapply (k_cfg _ _ Hk). }
  destruct Hx as [Hx|(i' & _ & _ & Hx & _)]; [|congruence].
  apply elem_of_app in Hat as [Hat|Hat].
  - assert (0 < count (is_attempt k) (e1 ++ ERemoved c (Some k) abn ask :: e2)); [|lia].
    apply elem_of_list_split in Hat as (l1 & l2 & ->). rewrite count_app. unfold count. cbn.
    rewrite List.filter_app. cbn. rewrite N.eqb_refl. rewrite app_length. cbn. lia.
  - eapply (dead_moves _ k); [exact HB|by eapply cinv_move| |exact Hat].
    pose proof (v_sidlt _ Hv _ _ _ Hi Hs) as Hlt. destruct (move_mono _ _ _ _ Hmv) as (_ & Hss & _). split; [lia|].
    intros b j Hb Hsid. exfalso. destruct (move_origin _ _ _ _ Hmv Hv _ _ Hb) as [j0 Hj E1|a j0 k0 Hj _ _ E1 E2 _ _ _ _ E3| |_ E1].
    + assert (b = c) as ->; [|congruence]. apply (v_sid _ Hv b c j0 i k); [done|done|congruence|done].
    + assert (k0 = k) as -> by congruence. lia.
    + congruence.
    + assert (k = cm_sids sA) by congruence. lia.
Qed.

(** C22 *)
Lemma spaced ops s ev ev1 ev2 k cfg t1 t2 : reach ops s ev -> guarded step fresh_clock (cinit hp) ops ->
  ev = ev1 ++ EAttempt k t2 :: ev2 -> EAttempt k t1 ∈ ev1 -> ESpawner k cfg ∈ ev -> t1 + sc_period cfg <= t2.
Proof.
  intros H Hg Heq Hat Hsp.
  pose proof (reach_inv _ _ _ H) as [_ Hkk _ _].
  pose proof (run_moves hp policy sync True ops _ _ _ (cinv_init hp) H (fun _ => Hg)) as Hms.
  destruct (moves_split _ _ _ _ Hms _ _ _ Heq) as (evA & sA & e1 & e2 & sB & evB & HA & Hmv & HB & -> & ->).
  destruct (allinv_moves _ _ _ _ _ HA (allinv_init _ _)) as [Hv Hk Ht _]. cbn in Hk, Ht.
  pose proof (move_events _ _ _ _ Hmv Hv) as He. rewrite Forall_forall in He.
  destruct (He (EAttempt k t2)) as (-> & Hone & a & i & Hq & Hm & Hac & Hs).
  { apply elem_of_app. right. left. }
  assert (Hcfg : ci_cfg i = cfg).
  { eapply (k_uniq _ _ Hkk k); [|done]. subst ev. rewrite <-(assoc_L (++)). apply elem_of_app. left. by eapply (k_cfg _ _ Hk). }
  apply elem_of_app in Hat as [Hat|Hat].
  - pose proof (t_last _ _ _ Ht _ _ _ _ Hm Hs Hat).
    assert (0 < ci_attempts i).
    { rewrite <-(k_att _ _ Hk _ _ _ Hm Hs). apply elem_of_list_split in Hat as (l1 & l2 & ->). unfold att. rewrite count_app. unfold count. cbn.
      rewrite N.eqb_refl. cbn. lia. }
    pose proof (t_pend _ _ _ Ht I _ _ _ Hq Hm Hs ltac:(done)). subst cfg. lia.
  - exfalso. apply elem_of_list_split in Hat as (l1 & l2 & ->). revert Hone. rewrite !count_app. unfold count. cbn.
    rewrite !N.eqb_refl. cbn. lia.
Qed.
Lemma spaced_instances ops s ev ev1 ev2 k cfg c1 c2 t1 t2 : reach ops s ev -> guarded step fresh_clock (cinit hp) ops ->
  ev = ev1 ++ EInstance k c2 t2 :: ev2 -> EInstance k c1 t1 ∈ ev1 -> ESpawner k cfg ∈ ev -> t1 + sc_period cfg <= t2.
Proof.
  intros H Hg Heq Hat Hsp.
  pose proof (run_moves hp policy sync True ops _ _ _ (cinv_init hp) H (fun _ => Hg)) as Hms.
  destruct (moves_split _ _ _ _ Hms _ _ _ Heq) as (evA & sA & e1 & e2 & sB & evB & HA & Hmv & HB & -> & ->).
  destruct (allinv_moves _ _ _ _ _ HA (allinv_init _ _)) as [Hv Hk Ht _]. cbn in Hk, Ht.
  pose proof (move_events _ _ _ _ Hmv Hv) as He. rewrite Forall_forall in He.
  destruct (He (EInstance k c2 t2)) as (Ht2 & Hc2 & Hee & _).
  { apply elem_of_app. right. left. }
  assert (e1 = [EAttempt k t2; ECreated c2] /\ e2 = []) as [-> ->].
  { destruct e1 as [|x1 [|x2 [|x3 [|x4 e1]]]]; cbn in Hee; try discriminate; inversion Hee; subst; done. }
  assert (Hin1 : EAttempt k t1 ∈ evA).
  { apply (t_inst _ _ _ Ht k c1). apply elem_of_app in Hat as [Hat|Hat]; [done|].
    exfalso. apply elem_of_cons in Hat as [?|Hat]; [done|]. by apply elem_of_list_singleton in Hat. }
  eapply (spaced ops s ev evA (ECreated c2 :: EInstance k c2 t2 :: [] ++ evB)); try done.
  subst ev. by rewrite <-(assoc_L (++)).
Qed.

(** C23 *)
Lemma shutdown_instances ops s ev ops2 s' ev2 : reach ops s ev -> 5 <= rank (cm_state s) -> run step s ops2 = Ok (s', ev2) ->
  count is_any_attempt ev2 <= N.of_nat (length (cm_spawnq s)) + count is_spawner ev2.
Proof.
  intros H Hr H2. pose proof (reach_inv _ _ _ H) as [Hv _ _ _].
  pose proof (run_moves hp policy sync False ops2 _ _ _ Hv H2 ltac:(done)) as Hms. pose proof (down_moves _ _ _ _ Hms Hv Hr). lia.
Qed.

(** C30 *)
Lemma ask_once ops s ev : reach ops s ev -> NoDup (shutreqs ev).
Proof. intros H. by destruct (reach_inv _ _ _ H) as [_ _ _ [? ? ? ? ? ? ? ? ?]]. Qed.

(** Which operations cast votes, start children and begin the shutdown. *)
Definition plain (e : cevent) : bool :=
  match e with
  | EVoteShutdown _ | EVoteInit _ | EStart _ | ESupStart | EInitOk _ | EShutdownStart => false
  | _ => true
  end.
Notation plains := (Forall (fun x => plain x = true)).
Lemma plain_self s : plains (self_shutdown s).
Proof. unfold self_shutdown. gm; repeat constructor. Qed.
Lemma plain_ic s : plains (init_continue s).
Proof. unfold init_continue. gm; repeat constructor. Qed.
Lemma plain_oc s a : plains (on_child_shutdown s a).
Proof. unfold on_child_shutdown. gm; repeat constructor. Qed.
Lemma plain_child s c : plains (child_shutdown s c).
Proof. unfold child_shutdown. destruct (cm_children s !! c); [|constructor]. gm; repeat constructor. Qed.
Lemma plain_all s : plains (request_shutdown_all s).2.
Proof. apply Forall_forall. intros x Hx. apply ask_events_in in Hx as [(c & a & i & -> & _)| ->]; done. Qed.
Lemma plain_remove s a ask s' e : remove_child policy s a ask = Ok (s', e) -> plains e.
Proof.
  unfold remove_child. intros H. destruct (cm_map s !! a) as [i|]; [|done].
  set (p1 := (if bool_decide (cm_state s = AInitializing) && negb (ci_started i) then
        if bool_decide (policy = PShutdownFailed) then (s, self_shutdown s)
        else if cm_initreq s then (set_initreq s false, [EInitError]) else (s, [])
      else (s, []))) in H.
  assert (Hp : plains p1.2).
  { unfold p1. repeat gm; cbn; try apply plain_self; repeat constructor. }
  destruct p1 as [s1 e1]. destruct (ci_actor i); [|done].
  match type of H with match ?p with _ => _ end = _ => set (p2 := p) in H end.
  assert (Hp2 : plains p2.1.1.2).
  { unfold p2. gm; [|constructor]. destruct (next_spawn _ _ _ _) as [? []]; cbn; repeat constructor. }
  destruct p2 as [[[s3 e3] i3] er]. cbn in Hp2. inversion H; subst. cbn in Hp. apply Forall_app. split; [done|].
  constructor; [done|]. apply Forall_app. split; [done|]. apply Forall_app. split; [gm; repeat constructor|apply plain_ic].
Qed.

Lemma step_plain s o s' e : step s o = Ok (s', e) ->
  match o with OVoteInit | OVoteShutdown | OHandleStart | OOnInit _ false | OTrigger _ => True | _ => plains e end.
Proof.
  intros H. destruct o as [|cfg|a ok|a|a failed|a|a subs ask|a ask| | | |id|d| | |st|c ch|m ask]; try done;
    cbn -[create_child spawn on_spawn] in H.
  - inversion H. repeat constructor.
  - inversion H. repeat constructor.
  - destruct (take_first a (cm_spawnq s)) as [q|]; [|inversion H; constructor].
    unfold on_spawn in H. destruct (cm_map (set_spawnq s q) !! a) as [i|]; [|done].
    destruct (negb (ci_active i)); [inversion H; constructor|].
    destruct (ok && bool_decide (is_Some (ci_sid i))); [inversion H; repeat constructor|].
    match type of H with match ?p with _ => _ end = _ => set (p2 := p) in H end.
    assert (Hp2 : plains p2.1.2). { unfold p2. repeat gm; cbn; try apply plain_self; repeat constructor. }
    destruct p2 as [[s1 e1] t1]. cbn in Hp2. destruct t1; cbn in H; inversion H; constructor; try done. apply Forall_app. split; [done|repeat constructor].
  - destruct (take_first a (cm_createq s)) as [q|]; [|inversion H; constructor].
    unfold on_create in H. destruct (cm_map (set_createq s q) !! a); inversion H; repeat constructor.
  - destruct failed; [|done]. destruct (bool_decide (a ∈ cm_initout s)); [|inversion H; constructor].
    unfold on_init in H. cbn [negb andb] in H. set (s1 := set_initout s _) in H.
    destruct (bool_decide (cm_state s1 = AInitializing) && bool_decide (policy = PShutdownSelf)).
    + destruct (cm_initreq s1); [|inversion H; apply plain_self]. destruct (a =? 0); inversion H; [apply plain_self|repeat constructor].
    + destruct (cm_map s1 !! a) as [i|]; [|inversion H; apply plain_self]. destruct (ci_actor i) as [c|]; [|done]. inversion H.
      destruct (c =? 0); [apply plain_self|apply plain_child].
  - destruct (bool_decide (a ∈ cm_shutout s)); [|inversion H; constructor].
    unfold on_shutdown_confirm in H. destruct (cm_map _ !! a) as [i|]; [|done]. destruct (ci_actor i); [|done].
    destruct subs; [inversion H; apply plain_oc|]. destruct (remove_child _ _ _ _) as [[s2 e2]| |] eqn:Er; cbn in H; [|done..].
    inversion H; subst. apply Forall_app. split; [by eapply plain_remove|apply plain_oc].
  - destruct (bool_decide (a ∈ cm_unsub s)); [|inversion H; constructor]. by eapply plain_remove.
  - destruct (cm_timers s !! id) as [d|]; [|inversion H; constructor]. destruct (d <=? cm_now s); [|inversion H; constructor].
    unfold on_spawn_timer in H. destruct (cm_spawning s !! id) as [key|]; [|done]. destruct (cm_map _ !! key); [|done].
    revert H. gm; intros H; inversion H; repeat constructor.
  - inversion H; constructor.
  - inversion H; constructor.
  - inversion H; constructor.
  - destruct (sup_moves hp (cm_state s) st); inversion H; constructor.
  - destruct (cm_children s !! c); [|inversion H; constructor]. destruct (decide _); inversion H; constructor.
  - destruct (bool_decide (cm_state s = AShuttingDown)); [|inversion H; constructor]. unfold deactivate in H.
    destruct (m && _); [|inversion H; constructor]. by eapply plain_remove.
Qed.

Lemma not_plain e x : plains e -> x ∈ e -> plain x = false -> False.
Proof. intros H Hx Hp. rewrite Forall_forall in H. apply H in Hx. congruence. Qed.

(** ** Shutdown *)
Lemma two_alive s a b i j : a <> b -> cm_map s !! a = Some i -> cm_map s !! b = Some j ->
  is_alive (cm_state s) i = true -> is_alive (cm_state s) j = true -> (2 <= active_actors s)%nat.
Proof.
  intros Hne Ha Hb Hi Hj. unfold active_actors.
  set (l := List.filter _ _).
  assert (H1 : (a, i) ∈ l). { apply elem_of_list_In, filter_In. split; [|done]. by apply elem_of_list_In, elem_of_map_to_list. }
  assert (H2 : (b, j) ∈ l). { apply elem_of_list_In, filter_In. split; [|done]. by apply elem_of_list_In, elem_of_map_to_list. }
  destruct l as [|x [|y l]]; [by apply elem_of_nil in H1| |cbn; lia].
  apply elem_of_list_singleton in H1, H2. congruence.
Qed.

Lemma vote_shutdown s o s' e b : step s o = Ok (s', e) -> EVoteShutdown b ∈ e ->
  cm_state s = AShuttingDown /\ exists i, cm_map s !! 0 = Some i /\
    s' = (request_shutdown_all (put_info s 0 (i_shut i SConfirmed))).1 /\
    e = (request_shutdown_all (put_info s 0 (i_shut i SConfirmed))).2 ++ [EVoteShutdown b] /\
    b = (active_actors s' =? 1)%nat.
Proof.
  intros H Hin. pose proof (step_plain _ _ _ _ H) as Hp.
  destruct o as [|cfg|a ok|a|a failed|a|a subs ask|a ask| | | |id|d| | |st|c ch|m ask]; try (exfalso; by eapply not_plain).
  - exfalso. destruct failed; [by eapply not_plain|]. cbn in H. destruct (bool_decide (a ∈ cm_initout s)); [|inversion H; subst; by apply elem_of_nil in Hin].
    unfold on_init in H. cbn [negb andb] in H. set (s1 := set_initout s _) in H.
    change (cm_map s1 !! a) with (cm_map s !! a) in H. destruct (cm_map s !! a) as [i|]; inversion H; subst; clear H.
    + apply elem_of_cons in Hin as [?|Hin]; [done|]. apply elem_of_app in Hin as [Hin|Hin].
      * revert Hin. gm; intros Hin; [by apply elem_of_list_singleton in Hin|by apply elem_of_nil in Hin].
      * revert Hin. gm; intros Hin; [|by apply elem_of_nil in Hin]. eapply not_plain; [apply plain_ic|done|done].
    + revert Hin. gm; intros Hin; [|by apply elem_of_nil in Hin]. eapply not_plain; [apply plain_ic|done|done].
  - exfalso. cbn in H. unfold on_shutdown_trigger in H. destruct (cm_map s !! a) as [i|]; [|done].
    unfold request_shutdown in H. destruct (ci_shut i); [|inversion H; subst; by apply elem_of_nil in Hin..].
    destruct (ci_actor i) as [c|]; [|done]. destruct (c =? 0).
    + destruct hp; [inversion H; subst; eapply not_plain; [apply plain_self|done|done]|].
      revert H. gm; intros H; [inversion H; subst; by apply elem_of_nil in Hin|].
      match type of H with context [request_shutdown_all ?x] => pose proof (plain_all x) as Hpa; destruct (request_shutdown_all x) as [s3 e3] end.
      inversion H; subst. apply elem_of_cons in Hin as [?|Hin]; [done|]. apply elem_of_app in Hin as [Hin|Hin].
      * by eapply not_plain.
      * by apply elem_of_list_singleton in Hin.
    + inversion H; subst. by apply elem_of_list_singleton in Hin.
  - exfalso. inversion H; subst. by apply elem_of_list_singleton in Hin.
  - cbn -[request_shutdown_all handle_shutdown] in H. case_bool_decide as Hst; [|inversion H; subst; by apply elem_of_nil in Hin].
    split; [done|]. unfold handle_shutdown in H. destruct (cm_map s !! 0) as [i|]; [|done]. exists i. split; [done|].
    pose proof (plain_all (put_info s 0 (i_shut i SConfirmed))) as Hpa.
    destruct (request_shutdown_all _) as [s1 e1] eqn:E1. cbn [fst snd] in *. inversion H; subst. split; [done|].
    apply elem_of_app in Hin as [Hin|Hin]; [exfalso; by eapply not_plain|]. apply elem_of_list_singleton in Hin. inversion Hin; subst. done.
  - exfalso. cbn in H. revert H. gm; intros H; [|inversion H; subst; by apply elem_of_nil in Hin].
    unfold handle_start in H. destruct sync; inversion H; subst.
    + apply elem_of_cons in Hin as [?|Hin]; [done|]. apply elem_of_list_omap in Hin as ([a i] & _ & Hx). destruct (a =? 0); inversion Hx.
    + by apply elem_of_list_singleton in Hin.
Qed.

Lemma created_live ops s ev c : reach ops s ev -> ECreated c ∈ ev -> ~ removed c ev ->
  c <> 0 /\ exists i, cm_map s !! c = Some i /\ ci_actor i = Some c.
Proof.
  intros H Hc Hr. destruct (reach_inv _ _ _ H) as [_ _ _ Hh]. split; [by apply (h_next _ _ Hh) in Hc as [? _]|].
  by destruct (h_live _ _ Hh _ Hc).
Qed.
Lemma removed_dec c ev : removed c ev \/ ~ removed c ev.
Proof.
  destruct (existsb (fun e => match e with ERemoved c' _ _ _ => c' =? c | _ => false end) ev) eqn:E.
  - left. apply existsb_exists in E as (x & Hx & Hp). destruct x; try done. apply N.eqb_eq in Hp as ->. apply elem_of_list_In in Hx.
    by exists sid, abn, ask.
  - right. intros (k & abn & ask & Hx). assert (existsb (fun e => match e with ERemoved c' _ _ _ => c' =? c | _ => false end) ev = true); [|congruence].
    apply existsb_exists. eexists. split; [by apply elem_of_list_In|]. cbn. apply N.eqb_refl.
Qed.

Lemma in_split_app {A} (l1 l2 : list A) x : x ∈ l1 -> x ∈ l1 ++ l2.
Proof. intros. apply elem_of_app. by left. Qed.

Lemma all_put_actor s i c j : cm_map s !! c = Some j -> c <> 0 -> ci_actor j = Some c ->
  exists j', cm_map (request_shutdown_all (put_info s 0 (i_shut i SConfirmed))).1 !! c = Some j' /\ ci_actor j' = Some c /\ ci_shut j' <> SNone.
Proof.
  intros Hj Hc Ha. exists (ask_child j). rewrite ask_all_map, lookup_fmap. cbn. rewrite lookup_insert_ne, Hj by done.
  destruct (ask_child_fields j) as (F1 & F2 & F3 & F4 & F5 & F6 & F7 & F8). rewrite F3. split_and!; [done|done|]. apply F7. by rewrite Ha.
Qed.

Lemma vote_at ops s ev ev1 ev2 b : reach ops s ev -> ev = ev1 ++ EVoteShutdown b :: ev2 ->
  exists ops1 sA evA sB i, reach ops1 sA evA /\ cm_state sA = AShuttingDown /\ cm_map sA !! 0 = Some i /\
    sB = (request_shutdown_all (put_info sA 0 (i_shut i SConfirmed))).1 /\
    ev1 = evA ++ (request_shutdown_all (put_info sA 0 (i_shut i SConfirmed))).2 /\
    b = (active_actors sB =? 1)%nat /\ moves False sB ev2 s /\ allinv False sB (ev1 ++ [EVoteShutdown b]).
Proof.
  intros H Heq. destruct (run_split _ _ _ _ _ _ _ _ H Heq) as (ops1 & o & ops2 & sA & evA & sB & e1 & e2 & evB & -> & HA & HB & HC & -> & ->).
  destruct (vote_shutdown _ _ _ _ b HB) as (Hst & i & Hi & HsB & He & Hv); [apply elem_of_app; right; left|].
  assert (e1 = (request_shutdown_all (put_info sA 0 (i_shut i SConfirmed))).2 /\ e2 = []) as [-> ->].
  { assert (Hl : e2 = []).
    { destruct e2 as [|y e2 _] using rev_ind; [done|]. exfalso. rewrite app_comm_cons, (assoc_L (++)) in He. apply app_inj_tail in He as [He ->].
      eapply (not_plain _ (EVoteShutdown b) (plain_all _)); [|done]. rewrite <-He. apply elem_of_app. right. left. }
    subst e2. by apply app_inj_tail in He as [? _]. }
  assert (Hcv : cinv sA) by (by destruct (reach_inv _ _ _ HA)).
  exists ops1, sA, evA, sB, i. split_and!; try done.
  - cbn. eapply run_moves; [by eapply cinv_step|exact HC|done].
  - rewrite <-(assoc_L (++)). eapply allinv_moves; [|by eapply reach_inv]. by eapply (step_moves hp policy sync False).
Qed.

Lemma vote_no_children ops s ev ev1 ev2 c : reach ops s ev -> ev = ev1 ++ EVoteShutdown true :: ev2 ->
  ECreated c ∈ ev1 -> removed c ev1.
Proof.
  intros H Heq Hc. destruct (vote_at _ _ _ _ _ _ H Heq) as (ops1 & sA & evA & sB & i & HA & Hst & Hi & HsB & -> & Hv & HB & HC).
  assert (Hc' : ECreated c ∈ evA).
  { apply elem_of_app in Hc as [Hc|Hc]; [done|]. by apply ask_events_in in Hc as [(? & ? & ? & ? & _)|?]. }
  apply removed_app. left. destruct (removed_dec c evA) as [|Hr]; [done|exfalso].
  destruct (created_live _ _ _ _ HA Hc' Hr) as (Hc0 & j & Hj & Ha).
  destruct (all_put_actor _ i _ _ Hj Hc0 Ha) as (j' & Hj' & Ha' & _). rewrite <-HsB in Hj'.
  symmetry in Hv. apply Nat.eqb_eq in Hv.
  destruct (reach_inv _ _ _ HA) as [Hcv _ _ _]. destruct (v_self _ Hcv _ Hi) as [Hs0 _].
  assert (exists i', cm_map sB !! 0 = Some i' /\ ci_actor i' = Some 0) as (i' & Hi' & Hi'a).
  { exists (ask_child (i_shut i SConfirmed)). rewrite HsB, ask_all_map, lookup_fmap. cbn. rewrite lookup_insert. split; [done|].
    rewrite (proj1 (proj2 (proj2 (ask_child_fields _)))). done. }
  assert (2 <= active_actors sB)%nat; [|lia].
  eapply (two_alive sB 0 c i' j'); try done; unfold is_alive.
  - rewrite Hi'a. rewrite bool_decide_true by done. done.
  - rewrite Ha'. rewrite bool_decide_true by done. done.
Qed.

(** ... nor will a spawner known by then make another one. *)
Lemma vote_no_respawn ops s ev ev1 ev2 k t : reach ops s ev -> ev = ev1 ++ EVoteShutdown true :: ev2 ->
  EAttempt k t ∈ ev2 -> exists cfg, ESpawner k cfg ∈ ev2.
Proof.
  intros H Heq Hin. destruct (vote_at _ _ _ _ _ _ H Heq) as (ops1 & sA & evA & sB & i & HA & Hst & Hi & HsB & Hev1 & Hv & HB & Hall).
  pose proof Hall as [HBc HBk _ _].
  destruct (decide (k < cm_sids sB)) as [Hk|Hk].
  - exfalso. eapply (dead_moves _ k); [exact HB|done| |exact Hin]. split; [done|]. intros b j Hb Hs.
    destruct (ci_active j) eqn:Hact; [|done]. exfalso.
    symmetry in Hv. apply Nat.eqb_eq in Hv.
    assert (exists i', cm_map sB !! 0 = Some i') as (i' & Hi').
    { exists (ask_child (i_shut i SConfirmed)). rewrite HsB, ask_all_map, lookup_fmap. cbn. by rewrite lookup_insert. }
    destruct (v_self _ HBc _ Hi') as [Hs0 Hs1].
    assert (Hst' : cm_state sB = AShuttingDown). { rewrite HsB. destruct (ask_all_eq (put_info sA 0 (i_shut i SConfirmed))) as [y ->]. done. }
    assert (2 <= active_actors sB)%nat; [|lia].
    eapply (two_alive sB 0 b i' j); try done; unfold is_alive.
    + intros <-. congruence.
    + rewrite Hs0. rewrite bool_decide_true by done. done.
    + rewrite Hact, Hst'. cbn. by rewrite orb_true_r.
  - apply elem_of_list_split in Hin as (l1 & l2 & Hl).
    destruct (moves_split _ _ _ _ HB _ _ _ Hl) as (evX & sX & e1 & e2 & sY & evY & HX & Hmv & HY & -> & ->).
    assert (HXv : cinv sX) by (by eapply cinv_moves).
    pose proof (move_events _ _ _ _ Hmv HXv) as He. rewrite Forall_forall in He.
    destruct (He (EAttempt k t)) as (_ & _ & a & ia & _ & Hm & _ & Hs); [apply elem_of_app; right; left|].
    destruct (allinv_moves _ _ _ _ (ev1 ++ [EVoteShutdown true]) HX Hall) as [_ HXk _ _].
    pose proof (k_cfg _ _ HXk _ _ _ Hm Hs) as Hsp. exists (ci_cfg ia). apply elem_of_app in Hsp as [Hsp|Hsp].
    + exfalso. apply (k_old _ _ HBk) in Hsp. done.
    + subst ev2. rewrite <-(assoc_L (++)). by apply in_split_app.
Qed.

(** Whenever the vote is asked, everybody has been asked and no respawn is scheduled. *)
Lemma vote_asked ops s ev ev1 ev2 b c : reach ops s ev -> ev = ev1 ++ EVoteShutdown b :: ev2 ->
  ECreated c ∈ ev1 -> removed c ev1 \/ EShutReq c ∈ ev1.
Proof.
  intros H Heq Hc. destruct (vote_at _ _ _ _ _ _ H Heq) as (ops1 & sA & evA & sB & i & HA & Hst & Hi & HsB & -> & Hv & HB & HC).
  assert (Hc' : ECreated c ∈ evA).
  { apply elem_of_app in Hc as [Hc|Hc]; [done|]. by apply ask_events_in in Hc as [(? & ? & ? & ? & _)|?]. }
  destruct (removed_dec c evA) as [|Hr]; [left; apply removed_app; by left|right].
  destruct (created_live _ _ _ _ HA Hc' Hr) as (Hc0 & j & Hj & Ha).
  destruct (all_put_actor _ i _ _ Hj Hc0 Ha) as (j' & Hj' & Ha' & Hs'). rewrite <-HsB in Hj'.
  destruct HC as [_ _ _ Hh]. pose proof (h_asked _ _ Hh _ _ Hj' Hc0 ltac:(by rewrite Ha') Hs') as Hx.
  apply elem_of_app in Hx as [Hx|Hx]; [done|]. by apply elem_of_list_singleton in Hx.
Qed.
Lemma vote_timers ops s ev s' e b : reach ops s ev -> step s OVoteShutdown = Ok (s', e) -> EVoteShutdown b ∈ e -> cm_timers s' = ∅.
Proof.
  intros H Hs Hin. destruct (vote_shutdown _ _ _ _ b Hs Hin) as (Hst & i & Hi & -> & _ & _).
  apply ask_all_notimers. destruct (reach_inv _ _ _ H) as [Hv _ _ _]. eapply cinv_quiet; [|done].
  eapply (qrel_put s [] _ 0 i (i_shut i SConfirmed)); [done| |done|].
  - split; try done; [by left|]. right. split; [done|]. by left.
  - by split_and!.
Qed.

(** The root supervisor asks as soon as it starts to shut down. *)
Lemma start_asked ops s ev ev1 ev2 c : reach ops s ev -> ev = ev1 ++ EShutdownStart :: ev2 ->
  ECreated c ∈ ev1 -> removed c ev1 \/ EShutReq c ∈ ev.
Proof.
  intros H Heq Hc. destruct (run_split _ _ _ _ _ _ _ _ H Heq) as (ops1 & o & ops2 & sA & evA & sB & e1 & e2 & evB & -> & HA & HB & HC & -> & ->).
  pose proof (step_plain _ _ _ _ HB) as Hp.
  assert (Hin : EShutdownStart ∈ e1 ++ EShutdownStart :: e2) by (apply elem_of_app; right; left).
  assert (Hall : allinv False sB (evA ++ e1 ++ EShutdownStart :: e2)).
  { eapply allinv_moves; [|by eapply reach_inv]. eapply (step_moves hp policy sync False); [|done|done]. by destruct (reach_inv _ _ _ HA). }
  destruct o as [|cfg|a ok|a|a failed|a|a subs ask|a ask| | | |id|d| | |st|c' ch|m ask]; try (exfalso; by eapply not_plain).
  - exfalso. destruct failed; [by eapply not_plain|]. cbn in HB. destruct (bool_decide (a ∈ cm_initout sA)); [|inversion HB as [[H1 H2]]; rewrite <-H2 in Hin; by apply elem_of_nil in Hin].
    unfold on_init in HB. cbn [negb andb] in HB. set (s1 := set_initout sA _) in HB.
    change (cm_map s1 !! a) with (cm_map sA !! a) in HB. destruct (cm_map sA !! a) as [i|]; inversion HB as [[H1 H2]]; rewrite <-H2 in Hin; clear HB.
    + apply elem_of_cons in Hin as [?|Hin]; [done|]. apply elem_of_app in Hin as [Hin|Hin].
      * revert Hin. gm; intros Hin; [by apply elem_of_list_singleton in Hin|by apply elem_of_nil in Hin].
      * revert Hin. gm; intros Hin; [|by apply elem_of_nil in Hin]. eapply not_plain; [apply plain_ic|done|done].
    + revert Hin. gm; intros Hin; [|by apply elem_of_nil in Hin]. eapply not_plain; [apply plain_ic|done|done].
  - cbn -[request_shutdown_all] in HB. unfold on_shutdown_trigger in HB. destruct (cm_map sA !! a) as [i|] eqn:Hi; [|done].
    unfold request_shutdown in HB. destruct (ci_shut i); [|inversion HB as [[H1 H2]]; rewrite <-H2 in Hin; by apply elem_of_nil in Hin..].
    destruct (ci_actor i) as [x|] eqn:Hx; [|done].
    assert (x = a) as -> by (destruct (reach_inv _ _ _ HA) as [Hcv _ _ _]; by eapply v_key).
    destruct (cancel_init_eq sA a) as [y Hy]. rewrite Hy in HB.
    destruct (N.eqb_spec a 0) as [->|Ha0].
    2:{ exfalso. inversion HB as [[H1 H2]]. rewrite <-H2 in Hin. by apply elem_of_list_singleton in Hin. }
    destruct hp eqn:Ehp in HB; [exfalso; inversion HB as [[H1 H2]]; rewrite <-H2 in Hin; eapply not_plain; [apply plain_self|done|done]|].
    revert HB. gm; intros HB; [exfalso; inversion HB as [[H1 H2]]; rewrite <-H2 in Hin; by apply elem_of_nil in Hin|].
    set (s2 := set_state _ AShuttingDown) in HB.
    pose proof (ask_all_map s2) as Hmm. pose proof (ask_events_in s2) as Hev.
    destruct (request_shutdown_all s2) as [s3 e3]. cbn in Hmm, Hev. inversion HB as [[H1 H2]].
    assert (Hc' : ECreated c ∈ evA).
    { apply elem_of_app in Hc as [Hc|Hc]; [done|]. exfalso.
      assert (Hx' : ECreated c ∈ EShutdownStart :: e3 ++ [EShutdownContinue]) by (rewrite H2; apply elem_of_app; by left).
      apply elem_of_cons in Hx' as [?|Hx']; [done|]. apply elem_of_app in Hx' as [Hx'|Hx']; [|by apply elem_of_list_singleton in Hx'].
      by apply Hev in Hx' as [(? & ? & ? & ? & _)|?]. }
    destruct (removed_dec c evA) as [|Hr]; [left; apply removed_app; by left|right].
    destruct (created_live _ _ _ _ HA Hc' Hr) as (Hc0 & j & Hj & Ha).
    destruct Hall as [_ _ _ Hh].
    assert (Hj' : cm_map sB !! c = Some (ask_child j)).
    { rewrite <-H1. cbn. rewrite lookup_insert_ne by done. rewrite Hmm, lookup_fmap, lookup_insert_ne, Hj by done. done. }
    destruct (ask_child_fields j) as (_ & _ & F3 & _ & _ & _ & F7 & _).
    pose proof (h_asked _ _ Hh _ _ Hj' Hc0 ltac:(by rewrite F3, Ha) (proj1 (F7 ltac:(by rewrite Ha)))) as Hq.
    subst ev. revert Hq. rewrite !elem_of_app, !elem_of_cons, !elem_of_app. tauto.
  - exfalso. inversion HB as [[H1 H2]]. rewrite <-H2 in Hin. by apply elem_of_list_singleton in Hin.
  - exfalso. cbn -[request_shutdown_all handle_shutdown] in HB. revert HB. gm; intros HB; [|inversion HB as [[H1 H2]]; rewrite <-H2 in Hin; by apply elem_of_nil in Hin].
    unfold handle_shutdown in HB. destruct (cm_map sA !! 0) as [i|]; [|done].
    pose proof (plain_all (put_info sA 0 (i_shut i SConfirmed))) as Hpa.
    destruct (request_shutdown_all _) as [s1 f1] eqn:E1. cbn [fst snd] in *. inversion HB as [[H1 H2]]. rewrite <-H2 in Hin.
    apply elem_of_app in Hin as [Hin|Hin]; [by eapply not_plain|]. by apply elem_of_list_singleton in Hin.
  - exfalso. cbn in HB. revert HB. gm; intros HB; [|inversion HB as [[H1 H2]]; rewrite <-H2 in Hin; by apply elem_of_nil in Hin].
    unfold handle_start in HB. destruct sync; inversion HB as [[H1 H2]]; rewrite <-H2 in Hin.
    + apply elem_of_cons in Hin as [?|Hin]; [done|]. apply elem_of_list_omap in Hin as ([a i] & _ & Hx). destruct (a =? 0); inversion Hx.
    + by apply elem_of_list_singleton in Hin.
Qed.

Lemma start_timers ops s ev o s' e : reach ops s ev -> step s o = Ok (s', e) -> EShutdownStart ∈ e -> cm_timers s' = ∅.
Proof.
  intros HA HB Hin. pose proof (step_plain _ _ _ _ HB) as Hp.
  destruct o as [|cfg|a ok|a|a failed|a|a subs ask|a ask| | | |id|d| | |st|c' ch|m ask]; try (exfalso; by eapply not_plain).
  - exfalso. destruct failed; [by eapply not_plain|]. cbn in HB. destruct (bool_decide (a ∈ cm_initout s)); [|inversion HB; subst; by apply elem_of_nil in Hin].
    unfold on_init in HB. cbn [negb andb] in HB. set (s1 := set_initout s _) in HB.
    change (cm_map s1 !! a) with (cm_map s !! a) in HB. destruct (cm_map s !! a) as [i|]; inversion HB; subst; clear HB.
    + apply elem_of_cons in Hin as [?|Hin]; [done|]. apply elem_of_app in Hin as [Hin|Hin].
      * revert Hin. gm; intros Hin; [by apply elem_of_list_singleton in Hin|by apply elem_of_nil in Hin].
      * revert Hin. gm; intros Hin; [|by apply elem_of_nil in Hin]. eapply not_plain; [apply plain_ic|done|done].
    + revert Hin. gm; intros Hin; [|by apply elem_of_nil in Hin]. eapply not_plain; [apply plain_ic|done|done].
  - cbn -[request_shutdown_all] in HB. unfold on_shutdown_trigger in HB. destruct (cm_map s !! a) as [i|] eqn:Hi; [|done].
    unfold request_shutdown in HB. destruct (ci_shut i) eqn:Hsh; [|inversion HB; subst; by apply elem_of_nil in Hin..].
    destruct (ci_actor i) as [x|] eqn:Hx; [|done].
    assert (Hcv : cinv s) by (by destruct (reach_inv _ _ _ HA)).
    assert (x = a) as -> by (by eapply v_key).
    destruct (cancel_init_eq s a) as [y Hy]. rewrite Hy in HB.
    destruct (N.eqb_spec a 0) as [->|Ha0].
    2:{ exfalso. inversion HB; subst. by apply elem_of_list_singleton in Hin. }
    destruct hp eqn:Ehp in HB; [exfalso; inversion HB; subst; eapply not_plain; [apply plain_self|done|done]|].
    revert HB. gm; intros HB; [exfalso; inversion HB; subst; by apply elem_of_nil in Hin|].
    set (s2 := set_state _ AShuttingDown) in HB.
    assert (Hn : cm_timers (request_shutdown_all s2).1 = ∅).
    { apply ask_all_notimers. eapply cinv_quiet; [|exact Hcv].
      eapply (qrel_put s [] s2 0 i (i_shut i SConfirmed)); [done| |done|].
      - split; try done; [by left|]. right. split; [done|]. by left.
      - by split_and!. }
    destruct (request_shutdown_all s2) as [s3 e3]. inversion HB. done.
  - exfalso. inversion HB; subst. by apply elem_of_list_singleton in Hin.
  - exfalso. cbn -[request_shutdown_all handle_shutdown] in HB. revert HB. gm; intros HB; [|inversion HB; subst; by apply elem_of_nil in Hin].
    unfold handle_shutdown in HB. destruct (cm_map s !! 0) as [i|]; [|done].
    pose proof (plain_all (put_info s 0 (i_shut i SConfirmed))) as Hpa.
    destruct (request_shutdown_all _) as [s1 f1] eqn:E1. cbn [fst snd] in *. inversion HB; subst.
    apply elem_of_app in Hin as [Hin|Hin]; [by eapply not_plain|]. by apply elem_of_list_singleton in Hin.
  - exfalso. cbn in HB. revert HB. gm; intros HB; [|inversion HB; subst; by apply elem_of_nil in Hin].
    unfold handle_start in HB. destruct sync; inversion HB; subst.
    + apply elem_of_cons in Hin as [?|Hin]; [done|]. apply elem_of_list_omap in Hin as ([a i] & _ & Hx). destruct (a =? 0); inversion Hx.
    + by apply elem_of_list_singleton in Hin.
Qed.

(** ** Initialization and start *)
Lemma vote_init ops s ev s' c : reach ops s ev -> step s OVoteInit = Ok (s', [EVoteInit true]) -> ECreated c ∈ ev ->
  removed c ev \/ EInitOk c ∈ ev \/ exists ch, cm_children s !! c = Some ch /\ 2 < rank (ch_state ch).
Proof.
  intros H Hs Hc. destruct (removed_dec c ev) as [|Hr]; [by left|right].
  destruct (created_live _ _ _ _ H Hc Hr) as (Hc0 & j & Hj & Ha). destruct (reach_inv _ _ _ H) as [_ _ _ Hh].
  destruct (ci_initialized j) eqn:Hi; [left; by eapply h_init|right].
  cbn in Hs. injection Hs as _ Hv. unfold handle_init in Hv. apply negb_true_iff in Hv.
  assert (Hno : initializing s c j = false).
  { destruct (initializing s c j) eqn:E; [|done]. assert (has_initializing s = true); [|congruence].
    unfold has_initializing. apply existsb_exists. exists (c, j). split; [by apply elem_of_list_In, elem_of_map_to_list|done]. }
  unfold initializing in Hno. rewrite Ha, Hi in Hno. destruct (N.eqb_spec c 0); [done|]. cbn in Hno.
  destruct (cm_children s !! c) as [ch|]; [|done]. exists ch. split; [done|]. rewrite andb_true_r in Hno. by apply N.leb_gt in Hno.
Qed.

(** The last answer lets the supervisor go on, provided the child's new state is
    already visible. *)
Lemma init_continues ops s ev s' e c : reach ops s ev -> step s (OOnInit c false) = Ok (s', e) -> c ∈ cm_initout s ->
  cm_state s = AInitializing -> cm_initreq s = true ->
  (forall a i, cm_map s !! a = Some i -> ci_actor i = Some a -> a <> 0 ->
     exists ch, cm_children s !! a = Some ch /\ (ci_initialized i = true \/ 2 < rank (ch_state ch))) ->
  EInitContinue ∈ e.
Proof.
  intros H Hs Hc Hst Hq Hall. destruct (reach_inv _ _ _ H) as [Hv _ _ _].
  assert (Hex : forall m ch, (forall a i, m !! a = Some i -> exists i0, cm_map s !! a = Some i0 /\ ci_actor i0 = ci_actor i /\ (ci_initialized i0 = true -> ci_initialized i = true)) ->
      ch = cm_children s -> forall x, cm_map x = m -> cm_children x = ch -> has_initializing x = false).
  { intros m ch Hm -> x Hx1 Hx2. unfold has_initializing. rewrite Hx1. apply not_true_is_false. intros Hex.
    apply existsb_exists in Hex as ([a i] & Hin & Hi). apply elem_of_list_In, elem_of_map_to_list in Hin.
    destruct (Hm _ _ Hin) as (i0 & Hi0 & Ha0 & Hn). unfold initializing in Hi. rewrite Hx2 in Hi. rewrite <-Ha0 in Hi.
    destruct (ci_actor i0) as [c'|] eqn:Ea; [|done]. assert (c' = a) as -> by (by eapply v_key).
    destruct (N.eqb_spec a 0) as [|Ha]; [by destruct (cm_children s !! a)|].
    destruct (Hall _ _ Hi0 Ea Ha) as (ch & Hch & [Hy|Hy]); rewrite Hch in Hi.
    - rewrite (Hn Hy), andb_false_r in Hi. done.
    - apply andb_true_iff in Hi as [Hi _]. cbn in Hi. apply N.leb_le in Hi. lia. }
  cbn in Hs. rewrite bool_decide_true in Hs by done. unfold on_init in Hs. cbn [negb andb] in Hs. set (s1 := set_initout s _) in Hs.
  assert (H1 : has_initializing s1 = false) by (eapply (Hex (cm_map s)); eauto).
  rewrite H1 in Hs. cbn [negb andb] in Hs. change (cm_map s1 !! c) with (cm_map s !! c) in Hs.
  assert (Hic : forall x, cm_state x = AInitializing -> cm_initreq x = true -> has_initializing x = false -> init_continue x = [EInitContinue]).
  { intros x X1 X2 X3. unfold init_continue. rewrite X1, X2, X3. done. }
  destruct (cm_map s !! c) as [i|] eqn:Hi; inversion Hs; subst; clear Hs.
  - apply elem_of_cons. right. apply elem_of_app. right. rewrite Hic; [left|done|done|].
    eapply (Hex _ _); [|done|reflexivity|reflexivity]. cbn. intros a j Hj. destruct (decide (a = c)) as [->|Hne].
    + rewrite lookup_insert in Hj. inversion Hj; subst. exists i. done.
    + rewrite lookup_insert_ne in Hj by done. exists j. done.
  - rewrite Hic; [left|done..].
Qed.

Lemma start_step s o s' e c : step s o = Ok (s', e) -> EStart c ∈ e ->
  (o = OHandleStart /\ sync = true /\ cm_state s = AInitialized /\ exists e', e = ESupStart :: e') \/ (o = OOnInit c false /\ (c = 0 \/ sync = false)).
Proof.
  intros H Hin. pose proof (step_plain _ _ _ _ H) as Hp.
  destruct o as [|cfg|a ok|a|a failed|a|a subs ask|a ask| | | |id|d| | |st|c' ch|m ask]; try (exfalso; by eapply not_plain).
  - right. destruct failed; [exfalso; by eapply not_plain|]. cbn in H. destruct (bool_decide (a ∈ cm_initout s)); [|inversion H; subst; by apply elem_of_nil in Hin].
    unfold on_init in H. cbn [negb andb] in H. set (s1 := set_initout s _) in H.
    change (cm_map s1 !! a) with (cm_map s !! a) in H. destruct (cm_map s !! a) as [i|]; inversion H; subst; clear H.
    + apply elem_of_cons in Hin as [?|Hin]; [done|]. apply elem_of_app in Hin as [Hin|Hin].
      * destruct (N.eqb_spec a 0) as [->|Ha].
        -- revert Hin. gm; intros Hin; [apply elem_of_list_singleton in Hin|by apply elem_of_nil in Hin]. inversion Hin. auto.
        -- destruct sync; cbn in Hin; [by apply elem_of_nil in Hin|]. apply elem_of_list_singleton in Hin. inversion Hin. auto.
      * exfalso. revert Hin. gm; intros Hin; [|by apply elem_of_nil in Hin]. eapply not_plain; [apply plain_ic|done|done].
    + exfalso. revert Hin. gm; intros Hin; [|by apply elem_of_nil in Hin]. eapply not_plain; [apply plain_ic|done|done].
  - exfalso. cbn in H. unfold on_shutdown_trigger in H. destruct (cm_map s !! a) as [i|]; [|done].
    unfold request_shutdown in H. destruct (ci_shut i); [|inversion H; subst; by apply elem_of_nil in Hin..].
    destruct (ci_actor i) as [x|]; [|done]. destruct (x =? 0).
    + destruct hp; [inversion H; subst; eapply not_plain; [apply plain_self|done|done]|].
      revert H. gm; intros H; [inversion H; subst; by apply elem_of_nil in Hin|].
      match type of H with context [request_shutdown_all ?x] => pose proof (plain_all x) as Hpa; destruct (request_shutdown_all x) as [s3 e3] end.
      inversion H; subst. apply elem_of_cons in Hin as [?|Hin]; [done|]. apply elem_of_app in Hin as [Hin|Hin].
      * by eapply not_plain.
      * by apply elem_of_list_singleton in Hin.
    + inversion H; subst. by apply elem_of_list_singleton in Hin.
  - exfalso. inversion H; subst. by apply elem_of_list_singleton in Hin.
  - exfalso. cbn -[request_shutdown_all handle_shutdown] in H. revert H. gm; intros H; [|inversion H; subst; by apply elem_of_nil in Hin].
    unfold handle_shutdown in H. destruct (cm_map s !! 0) as [i|]; [|done].
    pose proof (plain_all (put_info s 0 (i_shut i SConfirmed))) as Hpa.
    destruct (request_shutdown_all _) as [s1 e1] eqn:E1. cbn [fst snd] in *. inversion H; subst.
    apply elem_of_app in Hin as [Hin|Hin]; [by eapply not_plain|]. by apply elem_of_list_singleton in Hin.
  - left. cbn in H. case_bool_decide as Hst; [|inversion H; subst; by apply elem_of_nil in Hin].
    unfold handle_start in H. destruct sync; inversion H; subst; [by eauto|]. by apply elem_of_list_singleton in Hin.
Qed.

Lemma sync_start ops s ev ev1 ev2 c : sync = true -> reach ops s ev -> ev = ev1 ++ EStart c :: ev2 -> c <> 0 -> ESupStart ∈ ev1.
Proof.
  intros Hsy H Heq Hc. destruct (run_split _ _ _ _ _ _ _ _ H Heq) as (ops1 & o & ops2 & sA & evA & sB & e1 & e2 & evB & -> & HA & HB & HC & -> & ->).
  destruct (start_step _ _ _ _ c HB) as [(-> & _ & _ & e' & He)|(_ & [?|?])]; [apply elem_of_app; right; left| |done|congruence].
  destruct e1 as [|x e1]; [done|]. inversion He; subst. apply elem_of_app. right. left.
Qed.

Lemma sup_start_all ops s ev s' e c : sync = true -> reach ops s ev -> cm_state s = AInitialized ->
  step s OHandleStart = Ok (s', e) -> ECreated c ∈ ev -> removed c ev \/ EStart c ∈ e.
Proof.
  intros Hsy H Hst Hs Hc. destruct (removed_dec c ev) as [|Hr]; [by left|right].
  destruct (created_live _ _ _ _ H Hc Hr) as (Hc0 & j & Hj & Ha).
  cbn in Hs. rewrite bool_decide_true in Hs by done. unfold handle_start in Hs. rewrite Hsy in Hs. inversion Hs; subst.
  right. apply elem_of_list_omap. exists (c, j). split; [by apply elem_of_map_to_list|]. destruct (N.eqb_spec c 0); done.
Qed.

(** ** Failure of a child *)
Lemma failed_child ops s ev s' e c : policy = PShutdownFailed -> reach ops s ev -> c ∈ cm_initout s -> ECreated c ∈ ev -> ~ removed c ev ->
  step s (OOnInit c true) = Ok (s', e) ->
  s' = set_initout s (cm_initout s ∖ {[c]}) /\ (e = [] \/ e = [EChildShutdown c]).
Proof.
  intros Hp H Hout Hc Hr Hs. destruct (created_live _ _ _ _ H Hc Hr) as (Hc0 & j & Hj & Ha).
  cbn in Hs. rewrite bool_decide_true in Hs by done. unfold on_init in Hs. rewrite Hp in Hs.
  rewrite (bool_decide_false (PShutdownFailed = PShutdownSelf)) in Hs by done. rewrite andb_false_r in Hs.
  cbn [cm_map set_initout] in Hs. rewrite Hj, Ha in Hs. destruct (N.eqb_spec c 0); [done|]. inversion Hs; subst. split; [done|].
  unfold child_shutdown. destruct (cm_children _ !! c); [|by left]. gm; auto.
Qed.

(** ** An allowed restart is scheduled *)
Definition notrem (e : cevent) : bool := match e with ERemoved _ _ _ _ => false | _ => true end.
Notation notrems := (Forall (fun x => notrem x = true)).
Lemma notrem_self s : notrems (self_shutdown s).
Proof. unfold self_shutdown. gm; repeat constructor. Qed.
Lemma notrem_ic s : notrems (init_continue s).
Proof. unfold init_continue. gm; repeat constructor. Qed.
Lemma notrem_oc s a : notrems (on_child_shutdown s a).
Proof. unfold on_child_shutdown. gm; repeat constructor. Qed.
Lemma notrem_child s c : notrems (child_shutdown s c).
Proof. unfold child_shutdown. destruct (cm_children s !! c); [|constructor]. gm; repeat constructor. Qed.
Lemma notrem_all s : notrems (request_shutdown_all s).2.
Proof. apply Forall_forall. intros x Hx. apply ask_events_in in Hx as [(c & a & i & -> & _)| ->]; done. Qed.
Lemma step_notrem s o s' e : step s o = Ok (s', e) ->
  match o with OConfirm _ _ _ | OUnsubLast _ _ | ODeactivate _ _ => True | _ => notrems e end.
Proof.
  intros H. destruct o as [|cfg|a ok|a|a failed|a|a subs ask|a ask| | | |id|d| | |st|c ch|m ask]; try done;
    cbn -[create_child spawn on_spawn request_shutdown_all handle_shutdown] in H.
  - inversion H. repeat constructor.
  - inversion H. repeat constructor.
  - destruct (take_first a (cm_spawnq s)) as [q|]; [|inversion H; constructor].
    unfold on_spawn in H. destruct (cm_map (set_spawnq s q) !! a) as [i|]; [|done].
    destruct (negb (ci_active i)); [inversion H; constructor|].
    destruct (ok && bool_decide (is_Some (ci_sid i))); [inversion H; repeat constructor|].
    match type of H with match ?p with _ => _ end = _ => set (p2 := p) in H end.
    assert (Hp2 : notrems p2.1.2). { unfold p2. repeat gm; cbn; try apply notrem_self; repeat constructor. }
    destruct p2 as [[s1 e1] t1]. cbn in Hp2. destruct t1; cbn in H; inversion H; constructor; try done. apply Forall_app. split; [done|repeat constructor].
  - destruct (take_first a (cm_createq s)) as [q|]; [|inversion H; constructor].
    unfold on_create in H. destruct (cm_map (set_createq s q) !! a); inversion H; repeat constructor.
  - destruct (bool_decide (a ∈ cm_initout s)); [|inversion H; constructor].
    unfold on_init in H. set (s1 := set_initout s _) in H. destruct failed; cbn [negb andb] in H.
    + destruct (bool_decide (cm_state s1 = AInitializing) && bool_decide (policy = PShutdownSelf)).
      * destruct (cm_initreq s1); [|inversion H; apply notrem_self]. destruct (a =? 0); inversion H; [apply notrem_self|repeat constructor].
      * destruct (cm_map s1 !! a) as [i|]; [|inversion H; apply notrem_self]. destruct (ci_actor i) as [c|]; [|done]. inversion H.
        destruct (c =? 0); [apply notrem_self|apply notrem_child].
    + destruct (cm_map s1 !! a) as [i|]; inversion H.
      * constructor; [done|]. apply Forall_app. split; gm; try apply notrem_ic; repeat constructor.
      * gm; [apply notrem_ic|constructor].
  - unfold on_shutdown_trigger in H. destruct (cm_map s !! a) as [i|]; [|done].
    unfold request_shutdown in H. destruct (ci_shut i); [|inversion H; constructor..].
    destruct (ci_actor i) as [x|]; [|done]. destruct (x =? 0); [|inversion H; repeat constructor].
    destruct hp in H; [inversion H; apply notrem_self|]. revert H. gm; intros H; [inversion H; constructor|].
    match type of H with context [request_shutdown_all ?x] => pose proof (notrem_all x) as Hpa; destruct (request_shutdown_all x) as [s3 e3] end.
    inversion H. constructor; [done|]. apply Forall_app. split; [done|repeat constructor].
  - inversion H. repeat constructor.
  - revert H. gm; intros H; [|inversion H; constructor]. unfold handle_shutdown in H. destruct (cm_map s !! 0) as [i|]; [|done].
    match type of H with context [request_shutdown_all ?x] => pose proof (notrem_all x) as Hpa; destruct (request_shutdown_all x) as [s3 e3] end.
    inversion H. apply Forall_app. split; [done|repeat constructor].
  - revert H. gm; intros H; [|inversion H; constructor]. unfold handle_start in H. destruct sync; inversion H; [|repeat constructor].
    constructor; [done|]. apply Forall_forall. intros x Hx. apply elem_of_list_omap in Hx as ([a i] & _ & Hx). destruct (a =? 0); inversion Hx. done.
  - destruct (cm_timers s !! id) as [d|]; [|inversion H; constructor]. destruct (d <=? cm_now s); [|inversion H; constructor].
    unfold on_spawn_timer in H. destruct (cm_spawning s !! id) as [key|]; [|done]. destruct (cm_map _ !! key); [|done].
    revert H. gm; intros H; inversion H; repeat constructor.
  - inversion H; constructor.
  - inversion H; constructor.
  - inversion H; constructor.
  - destruct (sup_moves hp (cm_state s) st); inversion H; constructor.
  - destruct (cm_children s !! c); [|inversion H; constructor]. destruct (decide _); inversion H; constructor.
Qed.
Lemma not_notrem e c k abn ask : notrems e -> ERemoved c k abn ask ∈ e -> False.
Proof. intros H Hx. rewrite Forall_forall in H. apply H in Hx. done. Qed.

Lemma remove_event s a ask' s' e c k abn ask : remove_child policy s a ask' = Ok (s', e) -> ERemoved c k abn ask ∈ e ->
  exists i, cm_map s !! a = Some i /\ ci_sid i = k /\ ci_actor i = Some c /\ ask' = ask.
Proof.
  unfold remove_child. intros H Hin. destruct (cm_map s !! a) as [i|]; [|done]. exists i. split; [done|].
  set (p1 := (if bool_decide (cm_state s = AInitializing) && negb (ci_started i) then
        if bool_decide (policy = PShutdownFailed) then (s, self_shutdown s)
        else if cm_initreq s then (set_initreq s false, [EInitError]) else (s, [])
      else (s, []))) in H.
  assert (Hp : notrems p1.2).
  { unfold p1. repeat gm; cbn; try apply notrem_self; repeat constructor. }
  destruct p1 as [s1 e1]. destruct (ci_actor i); [|done].
  match type of H with match ?p with _ => _ end = _ => set (p2 := p) in H end.
  assert (Hp2 : notrems p2.1.1.2).
  { unfold p2. gm; [|constructor]. destruct (next_spawn _ _ _ _) as [? []]; cbn; repeat constructor. }
  destruct p2 as [[[s3 e3] i3] er]. cbn in Hp2. inversion H; subst. cbn in Hp.
  apply elem_of_app in Hin as [Hin|Hin]; [by destruct (not_notrem _ _ _ _ _ Hp Hin)|].
  apply elem_of_cons in Hin as [Hin|Hin]; [injection Hin as -> -> _ ->; by split_and!|exfalso].
  apply elem_of_app in Hin as [Hin|Hin]; [by destruct (not_notrem _ _ _ _ _ Hp2 Hin)|]. apply elem_of_app in Hin as [Hin|Hin]; [|eapply not_notrem; [apply notrem_ic|done]].
  eapply not_notrem; [|exact Hin]. gm; repeat constructor.
Qed.

Lemma removed_step s o s' e c k abn ask : step s o = Ok (s', e) -> ERemoved c k abn ask ∈ e ->
  (exists a, o = OConfirm a false ask /\ a ∈ cm_shutout s) \/ (exists a, o = OUnsubLast a ask /\ a ∈ cm_unsub s) \/
  ((exists m, o = ODeactivate m ask) /\ cm_state s = AShuttingDown).
Proof.
  intros H Hin. pose proof (step_notrem _ _ _ _ H) as Hp.
  destruct o as [|cfg|a ok|a|a failed|a|a subs ask'|a ask'| | | |id|d| | |st|c' ch|m ask']; try (exfalso; by eapply not_notrem).
  - left. exists a. cbn in H. case_bool_decide as Ha; [|inversion H; subst; by apply elem_of_nil in Hin]. unfold on_shutdown_confirm in H.
    destruct (cm_map _ !! a) as [i|]; [|done]. destruct (ci_actor i); [|done]. destruct subs.
    + exfalso. inversion H; subst. eapply not_notrem; [apply notrem_oc|done].
    + destruct (remove_child _ _ _ _) as [[s2 e2]| |] eqn:Er; cbn in H; [|done..]. inversion H; subst.
      apply elem_of_app in Hin as [Hin|Hin]; [|exfalso; eapply not_notrem; [apply notrem_oc|done]].
      by destruct (remove_event _ _ _ _ _ _ _ _ _ Er Hin) as (? & _ & _ & _ & ->).
  - right. left. exists a. cbn in H. case_bool_decide as Ha; [|inversion H; subst; by apply elem_of_nil in Hin].
    by destruct (remove_event _ _ _ _ _ _ _ _ _ H Hin) as (? & _ & _ & _ & ->).
  - right. right. cbn in H. case_bool_decide as Ha; [|inversion H; subst; by apply elem_of_nil in Hin]. unfold deactivate in H.
    revert H. gm; intros H; [|inversion H; subst; by apply elem_of_nil in Hin].
    destruct (remove_event _ _ _ _ _ _ _ _ _ H Hin) as (? & _ & _ & _ & ->). split; [by eexists|done].
Qed.

Lemma next_spawn_allowed i abn ask now : ci_timer i = 0 -> ci_active i = true -> allowed (ci_cfg i) abn ask = true ->
  (0 < sc_max (ci_cfg i) -> ci_attempts i < sc_max (ci_cfg i)) ->
  exists d, next_spawn i abn ask now = (i, d) /\ (d = DNow \/ d = DAfter).
Proof.
  intros Ht Ha Hal Hmax. unfold next_spawn, allowed in *. rewrite Ht, Ha. cbn.
  assert ((0 <? sc_max (ci_cfg i)) && (sc_max (ci_cfg i) <=? ci_attempts i) = false) as Hm.
  { destruct (N.ltb_spec 0 (sc_max (ci_cfg i))); [|done]. cbn. apply N.leb_gt. auto. }
  destruct (sc_escalate (ci_cfg i)); cbn; rewrite ?Hm; destruct (sc_policy (ci_cfg i)), abn, ask; cbn in *; try done;
    destruct (sc_period (ci_cfg i) <=? now - ci_last i); eauto.
Qed.

Lemma remove_restarts s a ask s' e i c k : ci_timer i = 0 -> cm_map s !! a = Some i -> ci_actor i = Some c -> ci_sid i = Some k ->
  rank (cm_state s) <= 4 -> remove_child policy s a ask = Ok (s', e) -> 
  forall abn, ERemoved c (Some k) abn ask ∈ e -> ci_active i = true -> allowed (ci_cfg i) abn ask = true -> (0 < sc_max (ci_cfg i) -> ci_attempts i < sc_max (ci_cfg i)) ->
  exists i', cm_map s' !! a = Some i' /\ ci_sid i' = Some k /\ ci_active i' = true /\
    (a ∈ cm_spawnq s' \/ cm_spawning s' !! ci_timer i' = Some a /\ cm_timers s' !! ci_timer i' = Some (cm_loop s + sc_period (ci_cfg i))).
Proof.
  intros Hv Hm Ha Hk Hr H abn Hin Hact Hal Hmax. unfold remove_child in H. rewrite Hm in H.
  set (p1 := (if bool_decide (cm_state s = AInitializing) && negb (ci_started i) then
        if bool_decide (policy = PShutdownFailed) then (s, self_shutdown s)
        else if cm_initreq s then (set_initreq s false, [EInitError]) else (s, [])
      else (s, []))) in H.
  assert (H1 : (exists x, p1.1 = set_initreq s x) /\ forall y, y ∈ p1.2 -> quiet y).
  { assert (Hs : exists x, s = set_initreq s x) by (exists (cm_initreq s); by destruct s).
    unfold p1. repeat gm; cbn; split; try done; try (intros y; apply quiet_not, quiet_self); try (by eexists); intros y Hy; try (by apply elem_of_nil in Hy).
    by apply elem_of_list_singleton in Hy as ->. }
  destruct p1 as [s1 e1]. cbn [fst snd] in H1. destruct H1 as [[x ->] Hq1].
  rewrite Ha in H. destruct (cancel_init_eq (set_initreq s x) c) as [y Hy]. rewrite Hy in H. clear Hy.
  set (s2 := set_initout (set_initreq s x) y) in H.
  set (abn' := match cm_children s2 !! c with Some ch => default false (ch_abn ch) | None => false end) in H.
  destruct (N.leb_spec (rank (cm_state s2)) 4) as [_|Hx]; [|change (cm_state s2) with (cm_state s) in Hx; lia].
  rewrite (bool_decide_true (is_Some (ci_sid i))) in H by (rewrite Hk; by eexists). cbn [andb] in H.
  assert (abn' = abn) as ->.
  { match type of H with match ?p with _ => _ end = _ => set (p2 := p) in H end.
    assert (Hp2 : forall z, z ∈ p2.1.1.2 -> quiet z).
    { unfold p2. destruct (next_spawn _ _ _ _) as [? []]; cbn; intros z Hz; try (by apply elem_of_nil in Hz); by apply elem_of_list_singleton in Hz as ->. }
    destruct p2 as [[[s3 e3] i3] er]. cbn in Hp2. inversion H; subst. apply elem_of_app in Hin as [Hin|Hin]; [by apply Hq1 in Hin|].
    apply elem_of_cons in Hin as [Hin|Hin]; [by inversion Hin|]. exfalso.
    apply elem_of_app in Hin as [Hin|Hin]; [by apply Hp2 in Hin|]. apply elem_of_app in Hin as [Hin|Hin].
    - revert Hin. gm; intros Hin; [by apply elem_of_list_singleton in Hin|by apply elem_of_nil in Hin].
    - by apply (quiet_not _ _ (quiet_ic _)) in Hin. }
  destruct (next_spawn_allowed i abn ask (cm_now s2)) as (d & Hn & Hd); [done..|].
  rewrite Hn in H. destruct Hd as [-> | ->].
  - cbn in H. inversion H; subst. cbn. eexists. rewrite lookup_insert. split_and!; [done|done|done|]. left. apply elem_of_app. right. left.
  - cbn in H. inversion H; subst. cbn. eexists. rewrite lookup_insert. split_and!; [done|done|done|]. right. cbn. by rewrite !lookup_insert.
Qed.

Lemma restart_scheduled ops s ev o s' e k cfg c abn ask : reach ops s ev -> ESpawner k cfg ∈ ev -> rank (cm_state s) <= 4 ->
  step s o = Ok (s', e) -> ERemoved c (Some k) abn ask ∈ e -> allowed cfg abn ask = true ->
  (0 < sc_max cfg -> count (is_attempt k) ev < sc_max cfg) ->
  exists a i', cm_map s' !! a = Some i' /\ ci_sid i' = Some k /\ ci_active i' = true /\
    (a ∈ cm_spawnq s' \/ cm_spawning s' !! ci_timer i' = Some a /\ cm_timers s' !! ci_timer i' = Some (cm_loop s + sc_period cfg)).
Proof.
  intros H Hsp Hr Hs Hin Hal Hmax.
  pose proof (reach_inv _ _ _ H) as [Hv Hk _ _].
  assert (Hgo : forall a i c', cm_map s !! a = Some i -> ci_actor i = Some c' -> ci_sid i = Some k ->
    ci_timer i = 0 /\ ci_cfg i = cfg /\ ci_active i = true /\ (0 < sc_max cfg -> ci_attempts i < sc_max cfg)).
  { intros a i c' Hm Ha Hk'. pose proof (k_uniq _ _ Hk _ _ _ (k_cfg _ _ Hk _ _ _ Hm Hk') Hsp) as Hc.
    pose proof (k_att _ _ Hk _ _ _ Hm Hk') as Hat. unfold att in Hat. rewrite Hat in Hmax. split_and!; [|done| |done].
    - eapply timer_none; [done..|by rewrite Ha].
    - destruct (k_act _ _ Hk _ _ _ Hm Hk' ltac:(by rewrite Ha)) as [|[Hne|[H1 H2]]]; [done|exfalso..]; rewrite Hc in *.
      + unfold allowed in Hal. rewrite Hne in Hal. done.
      + specialize (Hmax H1). lia. }
  destruct (removed_step _ _ _ _ _ _ _ _ Hs Hin) as [(a & -> & Hsh)|[(a & -> & Hun)|[[mm ->] Hst]]].
  - cbn in Hs. rewrite bool_decide_true in Hs by done. unfold on_shutdown_confirm in Hs. cbn [cm_map set_shutout] in Hs.
    destruct (cm_map s !! a) as [i|] eqn:Hm; [|done]. destruct (ci_actor i) as [c'|] eqn:Ha; [|done].
    set (s1 := put_info (set_shutout s (cm_shutout s ∖ {[a]})) a (i_shut i SConfirmed)) in Hs.
    destruct (remove_child policy s1 a ask) as [[s2 e2]| |] eqn:Er; cbn in Hs; [|done..]. inversion Hs; subst s2 e. clear Hs.
    apply elem_of_app in Hin as [Hin|Hin]; [|exfalso; revert Hin; unfold on_child_shutdown; gm; intros Hin; [by apply elem_of_list_singleton in Hin|by apply elem_of_nil in Hin]].
    assert (Hm1 : cm_map s1 !! a = Some (i_shut i SConfirmed)) by (cbn; by rewrite lookup_insert).
    destruct (remove_event _ _ _ _ _ _ _ _ _ Er Hin) as (i1 & Hi1 & Hk1 & Ha1 & _). rewrite Hm1 in Hi1. inversion Hi1; subst i1. cbn in Hk1, Ha1.
    destruct (Hgo _ _ _ Hm Ha1 Hk1) as (G1 & G2 & G3 & G4). exists a.
    replace (sc_period cfg) with (sc_period (ci_cfg (i_shut i SConfirmed))) by (cbn; by rewrite G2).
    change (cm_loop s) with (cm_loop s1). eapply (remove_restarts s1); try done; cbn; by rewrite G2.
  - cbn in Hs. rewrite bool_decide_true in Hs by done. set (s1 := set_unsub s (cm_unsub s ∖ {[a]})) in Hs.
    destruct (remove_event _ _ _ _ _ _ _ _ _ Hs Hin) as (i1 & Hi1 & Hk1 & Ha1 & _).
    destruct (Hgo _ _ _ Hi1 Ha1 Hk1) as (G1 & G2 & G3 & G4). exists a.
    replace (sc_period cfg) with (sc_period (ci_cfg i1)) by (by rewrite G2).
    change (cm_loop s) with (cm_loop s1). eapply (remove_restarts s1); try done; cbn; by rewrite G2.
  - rewrite Hst in Hr. cbn in Hr. lia.
Qed.
End facts.
