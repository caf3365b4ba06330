(** What one step of a family does to the state of its supervisor, to its children and
    to the list of the child manager. *)
From stdpp Require Import base list gmap.
From Verif Require Import Base ChildMgrModel ChildMgrSpec ChildMgrProofs ChildMgrTrace ChildMgrFacts FamilyModel FamilySpec FamilySteps FamilyFold FamilyInv FamilyChild FamilyProofs FamilyInit.
Open Scope N_scope.

Section steps.
Context (hp : bool) (policy : spolicy) (sync : bool).
Notation step := (cstep hp policy sync).
Notation fstep := (fstep hp policy sync).
Notation manage := (manage hp policy sync).
Notation manage0 := (manage0 hp policy sync).

(** ** The state of the supervisor *)
(** The init request is open, or answered with an error. *)
Definition own_moves (s : cstate) (e : list cevent) (s' : cstate) : Prop :=
  cm_state s' = cm_state s /\
  ((cm_initreq s' = cm_initreq s /\ EInitError ∉ e) \/
   (cm_state s = AInitializing /\ cm_initreq s = true /\ cm_initreq s' = false /\ EInitError ∈ e)) /\
  (ESelfShutdown ∈ e -> rank (cm_state s) < 5).
Lemma own_quiet s e s' : cm_state s' = cm_state s -> cm_initreq s' = cm_initreq s -> EInitError ∉ e -> ESelfShutdown ∉ e -> own_moves s e s'.
Proof. intros H1 H2 H3 H4. split; [done|]. split; [by left|]. by intros ?. Qed.
Lemma self_in s x : x ∈ self_shutdown s -> x = ESelfShutdown /\ rank (cm_state s) < 5.
Proof. unfold self_shutdown. destruct (N.ltb_spec (rank (cm_state s)) 5); [|intros Hx; by apply elem_of_nil in Hx]. intros Hx. by apply elem_of_list_singleton in Hx. Qed.
Lemma own_self s s' e : cm_state s' = cm_state s -> cm_initreq s' = cm_initreq s -> (forall x, x ∈ e -> x ∈ self_shutdown s) -> own_moves s e s'.
Proof.
  intros H1 H2 H3. split; [done|]. split; [left; split; [done|]|].
  - intros Hx. by apply H3, self_in in Hx as [? _].
  - intros Hx. by apply H3, self_in in Hx as [_ ?].
Qed.
Lemma init_cont_in s x : x ∈ init_continue s -> x = EInitContinue.
Proof. unfold init_continue. destruct (_ && _); [|intros Hx; by apply elem_of_nil in Hx]. intros Hx. by apply elem_of_list_singleton in Hx. Qed.
Lemma own_app s e s' e2 : own_moves s e s' -> (forall x, x ∈ e2 -> x <> EInitError /\ x <> ESelfShutdown) -> own_moves s (e ++ e2) s'.
Proof.
  intros (H1 & H2 & H3) He. split; [done|]. split.
  - destruct H2 as [[? Hn]|(? & ? & ? & ?)]; [left|right].
    + split; [done|]. rewrite elem_of_app. intros [?|Hx]; [done|]. by apply He in Hx as [? _].
    + split_and!; try done. apply elem_of_app. by left.
  - rewrite elem_of_app. intros [?|Hx]; [auto|]. by apply He in Hx as [_ ?].
Qed.
Lemma own_same s e s' s2 : own_moves s e s' -> cm_state s2 = cm_state s' -> cm_initreq s2 = cm_initreq s' -> own_moves s e s2.
Proof. intros (H1 & H2 & H3) Ha Hb. split; [congruence|]. split; [|done]. destruct H2 as [[? ?]|(? & ? & ? & ?)]; [left|right]; split_and!; congruence. Qed.
Lemma own_pre s0 s e s' : own_moves s e s' -> cm_state s0 = cm_state s -> cm_initreq s0 = cm_initreq s -> own_moves s0 e s'.
Proof. intros (H1 & H2 & H3) Ha Hb. split; [congruence|]. split; [|by rewrite Ha]. destruct H2 as [[? ?]|(? & ? & ? & ?)]; [left|right]; split_and!; congruence. Qed.

Lemma cancel_own s c : cm_state (cancel_init s c) = cm_state s /\ cm_initreq (cancel_init s c) = cm_initreq s.
Proof. destruct (cancel_init_eq s c) as [x ->]. done. Qed.
Lemma foldl_cancel_own l : forall s, cm_state (foldl cancel_init s l) = cm_state s /\ cm_initreq (foldl cancel_init s l) = cm_initreq s.
Proof. induction l as [|c l IH]; intros s; [done|]. cbn. destruct (IH (cancel_init s c)) as [-> ->]. apply cancel_own. Qed.
Lemma all_own s : cm_state (request_shutdown_all s).1 = cm_state s /\ cm_initreq (request_shutdown_all s).1 = cm_initreq s /\
  EInitError ∉ (request_shutdown_all s).2 /\ ESelfShutdown ∉ (request_shutdown_all s).2.
Proof.
  destruct (foldl_cancel_own (omap asked (map_to_list (cm_map s)).*2) s) as [H1 H2]. destruct (all_kept s) as (_ & _ & _ & _ & _ & _ & _ & _ & Hx).
  split_and!; [exact H1|exact H2|..]; intros He; apply Hx in He as [?|[? ?]]; done.
Qed.

Lemma remove_own s a ask s' e : remove_child policy s a ask = Ok (s', e) -> own_moves s e s'.
Proof.
  intros H. unfold remove_child in H. destruct (cm_map s !! a) as [i|]; [|done].
  set (p1 := (if bool_decide (cm_state s = AInitializing) && negb (ci_started i) then
        if bool_decide (policy = PShutdownFailed) then (s, self_shutdown s)
        else if cm_initreq s then (set_initreq s false, [EInitError]) else (s, [])
      else (s, []))) in H.
  assert (H1 : own_moves s p1.2 p1.1).
  { unfold p1. destruct (bool_decide (cm_state s = AInitializing)) eqn:Hi; cbn; [|apply own_quiet; try done; apply not_elem_of_nil].
    apply bool_decide_eq_true in Hi. destruct (negb _); [|apply own_quiet; try done; apply not_elem_of_nil].
    destruct (bool_decide (policy = _)); [by apply own_self|]. destruct (cm_initreq s) eqn:Hr; [|apply own_quiet; try done; apply not_elem_of_nil].
    split; [done|]. split; [right; split_and!; try done; left|]. intros Hx. by apply elem_of_list_singleton in Hx. }
  destruct p1 as [s1 e1]. cbn [fst snd] in H1. destruct (ci_actor i) as [d|]; [|done].
  match type of H with match ?p with _ => _ end = _ => set (p2 := p) in H end.
  assert (H2 : cm_state p2.1.1.1 = cm_state s1 /\ cm_initreq p2.1.1.1 = cm_initreq s1 /\ forall x, x ∈ p2.1.1.2 -> x <> EInitError /\ x <> ESelfShutdown).
  { destruct (cancel_own s1 d) as [Hc1 Hc2]. unfold p2. destruct (_ && _); [|cbn; split_and!; [done|done|]; intros x Hx; by apply elem_of_nil in Hx].
    destruct (next_spawn _ _ _ _) as [i' []]; cbn; (split; [exact Hc1|]; split; [exact Hc2|]); intros x Hx; try (by apply elem_of_nil in Hx); apply elem_of_list_singleton in Hx as ->; done. }
  destruct p2 as [[[s3 e3] i3] er]. cbn [fst snd] in H2. destruct H2 as (S1 & S2 & He3).
  set (s4 := if er then _ else _) in H. assert (H4 : cm_state s4 = cm_state s1 /\ cm_initreq s4 = cm_initreq s1) by (unfold s4; destruct er; done).
  injection H as <- <-. apply own_app; [eapply own_same; [exact H1|apply H4|apply H4]|].
  intros x Hx. apply elem_of_cons in Hx as [->|Hx]; [done|]. apply elem_of_app in Hx as [Hx|Hx]; [auto|]. apply elem_of_app in Hx as [Hx|Hx].
  - destruct (_ && _); [apply elem_of_list_singleton in Hx as ->; done|by apply elem_of_nil in Hx].
  - by apply init_cont_in in Hx as ->.
Qed.

Lemma step_own s o s' e : (hp = true \/ match o with OTrigger _ => False | _ => True end) -> match o with OChild _ _ | OState _ | OHandleStart | OInitRequest => False | _ => True end ->
  step s o = Ok (s', e) -> own_moves s e s'.
Proof.
  intros Hp Ho H.
  assert (Hno : own_moves s [] s) by (apply own_quiet; try done; apply not_elem_of_nil).
  destruct o as [|cfg|a ok|a|a failed|a|a subs ask|a ask| | | |id|d| | |st|x ch|m ask];
    cbn -[create_child spawn on_spawn on_create on_init on_shutdown_trigger on_shutdown_confirm remove_child handle_shutdown handle_start on_spawn_timer deactivate] in H; try done.
  - destruct (create_child s None) as [s1 d] eqn:Hcr. unfold create_child in Hcr. injection Hcr as <- <-. injection H as <- <-.
    apply own_quiet; try done; intros Hx; by apply elem_of_list_singleton in Hx.
  - unfold spawn in H. injection H as <- <-. apply own_quiet; try done; intros Hx; apply elem_of_cons in Hx as [?|Hx]; try done; by apply elem_of_list_singleton in Hx.
  - destruct (take_first a (cm_spawnq s)) as [q|] eqn:Hq; [|by injection H as <- <-].
    eapply (own_pre s (set_spawnq s q)); [|done..]. clear Hno. set (t := set_spawnq s q) in *. clearbody t. clear s Hq. rename t into s.
    assert (Hno : own_moves s [] s) by (apply own_quiet; try done; apply not_elem_of_nil).
    unfold on_spawn in H. destruct (cm_map s !! a) as [i|] eqn:Hi; [|done]. destruct (negb _); [by injection H as <- <-|]. destruct (ok && _).
    + destruct (create_child s _) as [s1 d] eqn:Hcr. unfold create_child in Hcr. injection Hcr as <- <-. injection H as <- <-.
      apply own_quiet; try done; intros Hx; repeat (apply elem_of_cons in Hx as [?|Hx]; [done|]); by apply elem_of_nil in Hx.
    + match type of H with match ?q with _ => _ end = _ => set (p := q) in H end.
      assert (H1 : own_moves s p.1.2 p.1.1).
      { unfold p. destruct (bool_decide (cm_state s = AInitializing)) eqn:Hs; cbn; [|done]. apply bool_decide_eq_true in Hs. destruct (bool_decide (policy = _)); [|done].
        destruct (cm_initreq s) eqn:Hr; [|cbn; by apply own_self]. split; [done|]. split; [right; split_and!; try done; left|]. intros Hx. by apply elem_of_list_singleton in Hx. }
      assert (Hc : forall e' s'', own_moves s e' s'' -> own_moves s (EAttempt (default 0 (ci_sid i)) (cm_now s) :: e') s'').
      { intros e' s'' (A1 & A2 & A3). split; [done|]. split.
        - destruct A2 as [[? Hn]|(? & ? & ? & ?)]; [left|right]; split_and!; try done; [|by right]. intros Hx. apply elem_of_cons in Hx as [?|?]; done.
        - intros Hx. apply elem_of_cons in Hx as [?|?]; [done|auto]. }
      destruct p as [[s1 e1] tr]. cbn [fst snd] in H1. destruct tr.
      * destruct (start_timer s1 a _) as [s2 id] eqn:Ht. unfold start_timer in Ht. injection Ht as <- <-. injection H as <- <-. apply Hc.
        apply own_app; [by eapply own_same|]. intros x Hx. by apply elem_of_list_singleton in Hx as ->.
      * injection H as <- <-. apply Hc. by eapply own_same.
  - destruct (take_first a (cm_createq s)) as [q|]; [|by injection H as <- <-]. unfold on_create in H. cbn in H. destruct (cm_map s !! a); [|done].
    injection H as <- <-. apply own_quiet; try done; intros Hx; by apply elem_of_list_singleton in Hx.
  - case_bool_decide; [|by injection H as <- <-].
    eapply (own_pre s (set_initout s (cm_initout s ∖ {[a]}))); [|done..]. set (t := set_initout _ _) in *. clearbody t. clear Hno. clear s H0. rename t into s.
    unfold on_init in H. destruct failed; cbn [negb andb] in H.
    + destruct (bool_decide (cm_state s = AInitializing)) eqn:Hs; cbn [andb] in H.
      * apply bool_decide_eq_true in Hs. destruct (bool_decide (policy = PShutdownSelf)).
        -- destruct (cm_initreq s) eqn:Hr; [destruct (a =? 0); injection H as <- <-; [by apply own_self|]|injection H as <- <-; by apply own_self].
           split; [done|]. split; [right; split_and!; try done; left|]. intros Hx. by apply elem_of_list_singleton in Hx.
        -- destruct (cm_map s !! a) as [i|]; [|injection H as <- <-; by apply own_self]. destruct (ci_actor i) as [d|]; [|done]. injection H as <- <-.
           destruct (d =? 0); [by apply own_self|]. unfold child_shutdown. destruct (_ !! d) as [ch|]; [destruct (_ <? _)|]; apply own_quiet; try done; intros Hx; try (by apply elem_of_list_singleton in Hx); by apply elem_of_nil in Hx.
      * destruct (cm_map s !! a) as [i|]; [|injection H as <- <-; by apply own_self]. destruct (ci_actor i) as [d|]; [|done]. injection H as <- <-.
        destruct (d =? 0); [by apply own_self|]. unfold child_shutdown. destruct (_ !! d) as [ch|]; [destruct (_ <? _)|]; apply own_quiet; try done; intros Hx; try (by apply elem_of_list_singleton in Hx); by apply elem_of_nil in Hx.
    + match type of H with (let '(_, _) := ?q in _) = _ => set (p := q) in H end.
      assert (H1 : own_moves s p.2 p.1).
      { unfold p. destruct (cm_map s !! a) as [i|]; [|apply own_quiet; try done; apply not_elem_of_nil]. apply own_quiet; try done; cbn [snd]; intros Hx;
        (apply elem_of_cons in Hx as [?|Hx]; [done|]); match type of Hx with context [if ?b then _ else _] => destruct b end; try (by apply elem_of_list_singleton in Hx); by apply elem_of_nil in Hx. }
      destruct p as [s1 e1]. cbn [fst snd] in H1. injection H as <- <-. apply own_app; [done|]. intros x Hx. destruct (negb _); [by apply init_cont_in in Hx as ->|by apply elem_of_nil in Hx].
  - unfold on_shutdown_trigger in H. destruct (cm_map s !! a) as [i|]; [|done]. unfold request_shutdown in H. destruct (ci_shut i); [|by injection H as <- <-..].
    destruct (ci_actor i) as [y|]; [|done]. destruct (cancel_own s y) as [Hc1 Hc2]. destruct (y =? 0).
    + destruct Hp as [Hp|[]]. rewrite Hp in H. injection H as <- <-. apply own_self; [done..|]. unfold self_shutdown. by rewrite Hc1.
    + injection H as <- <-. apply own_quiet; try done; intros Hx; by apply elem_of_list_singleton in Hx.
  - case_bool_decide; [|by injection H as <- <-]. unfold on_shutdown_confirm in H. cbn [cm_map set_shutout] in H. destruct (cm_map s !! a) as [i|]; [|done].
    destruct (ci_actor i); [|done]. assert (Hoc : forall t x, x ∈ on_child_shutdown t a -> x <> EInitError /\ x <> ESelfShutdown).
    { intros t x Hx. unfold on_child_shutdown in Hx. destruct (_ && _); [by apply elem_of_list_singleton in Hx as ->|by apply elem_of_nil in Hx]. }
    destruct subs.
    + injection H as <- <-. apply own_quiet; try done; intros Hx; by apply Hoc in Hx as [? ?].
    + destruct (remove_child _ _ _ _) as [[s2 e2]| |] eqn:Hr; try done. cbn in H. injection H as <- <-. apply remove_own in Hr. apply own_app; [by eapply own_pre|apply Hoc].
  - case_bool_decide; [|by injection H as <- <-]. apply remove_own in H. by eapply own_pre.
  - injection H as <- <-. apply own_quiet; try done; intros Hx; by apply elem_of_list_singleton in Hx.
  - case_bool_decide; [|by injection H as <- <-]. unfold handle_shutdown in H. destruct (cm_map s !! 0) as [i|]; [|done].
    destruct (all_own (put_info s 0 (i_shut i SConfirmed))) as (A1 & A2 & A3 & A4). destruct (request_shutdown_all _) as [s1 e1]. cbn in A1, A2, A3, A4. injection H as <- <-.
    apply own_app; [by apply own_quiet|]. intros x Hx. by apply elem_of_list_singleton in Hx as ->.
  - destruct (cm_timers s !! id) as [d|]; [|by injection H as <- <-]. destruct (_ <=? _); [|by injection H as <- <-].
    unfold on_spawn_timer in H. destruct (cm_spawning s !! id) as [key|]; [|done]. cbn in H. destruct (cm_map s !! key) as [i|]; [|done].
    destruct (_ <=? _); injection H as <- <-; apply own_quiet; try done; intros Hx; try (by apply elem_of_list_singleton in Hx); by apply elem_of_nil in Hx.
  - injection H as <- <-. apply own_quiet; try done; apply not_elem_of_nil.
  - injection H as <- <-. apply own_quiet; try done; apply not_elem_of_nil.
  - case_bool_decide; [|by injection H as <- <-]. unfold deactivate in H. destruct (_ && _); [by apply remove_own in H|by injection H as <- <-].
Qed.

(** ** The list, after the child manager has agreed *)
Definition idle_map (s : cstate) : Prop := forall a i, cm_map s !! a = Some i -> a <> 0 -> ci_actor i = None /\ ci_timer i = 0 /\ ci_active i = false.
Definition isout (i : cinfo) : Prop := ci_actor i = None /\ ci_timer i = 0 /\ ci_active i = false.
Lemma idle_same s s' : cm_map s' = cm_map s -> idle_map s -> idle_map s'.
Proof. intros H Hi a i. rewrite H. apply Hi. Qed.
Lemma idle_put s s' a i : cm_map s' = <[a := i]> (cm_map s) -> (a <> 0 -> isout i) -> idle_map s -> idle_map s'.
Proof. intros H Ho Hi b j. rewrite H. destruct (decide (b = a)) as [->|]; [rewrite lookup_insert; intros [= <-]; apply Ho|rewrite lookup_insert_ne by done; apply Hi]. Qed.
Lemma idle_remove s a ask s' e : idle_map s -> remove_child policy s a ask = Ok (s', e) -> idle_map s'.
Proof.
  intros Hi H. unfold remove_child in H. destruct (cm_map s !! a) as [i|] eqn:Ha; [|done].
  set (p1 := (if bool_decide (cm_state s = AInitializing) && negb (ci_started i) then
        if bool_decide (policy = PShutdownFailed) then (s, self_shutdown s)
        else if cm_initreq s then (set_initreq s false, [EInitError]) else (s, [])
      else (s, []))) in H.
  assert (H1 : cm_map p1.1 = cm_map s) by (unfold p1; by repeat case_match).
  destruct p1 as [s1 e1]. cbn [fst snd] in H1. destruct (ci_actor i) as [d|] eqn:Hd; [|done].
  destruct (cancel_kept s1 d) as (_ & Hk & _).
  match type of H with match ?p with _ => _ end = _ => set (p2 := p) in H end.
  assert (H2 : cm_map p2.1.1.1 = cm_map s).
  { unfold p2. destruct (_ && _); [|by cbn; congruence]. destruct (next_spawn _ _ _ _) as [i' []]; cbn; congruence. }
  assert (Ha0 : a = 0). { destruct (decide (a = 0)) as [|Hne]; [done|]. destruct (Hi a i Ha Hne) as [? _]. congruence. } subst a.
  destruct p2 as [[[s3 e3] i3] er]. cbn [fst snd] in H2. injection H as <- _.
  destruct er; cbn.
  - intros b j. cbn. rewrite H2. intros Hb Hb0. rewrite lookup_delete_ne in Hb by done. by apply (Hi b j).
  - eapply (idle_put s); [cbn; by rewrite H2|done|done].
Qed.
Lemma ask_out i : isout i -> ask_child i = i.
Proof. intros (H1 & H2 & H3). unfold ask_child. by rewrite H1, H2. Qed.
Lemma idle_all s : idle_map s -> idle_map (request_shutdown_all s).1.
Proof.
  intros Hi a j. rewrite ask_all_map, lookup_fmap. intros Hx Ha. destruct (cm_map s !! a) as [i|] eqn:He; [|done]. cbn in Hx. injection Hx as <-.
  pose proof (Hi a i He Ha) as Ho. rewrite ask_out by done. done.
Qed.
Lemma idle_step s o s' e : cinv s -> idle_map s -> match o with OCreate | OSpawn _ | OChild _ _ => False | _ => True end -> step s o = Ok (s', e) ->
  idle_map s' /\ forall c, ECreated c ∉ e.
Proof.
  intros Hv Hi Ho H.
  assert (Hcr : match o with OOnSpawn _ _ => False | _ => True end -> forall c, ECreated c ∉ e).
  { intros Hn c Hc. assert (E : eff s o s' e) by (eapply step_eff; eauto; by destruct o). pose proof (ef_kind _ _ _ _ E) as Hk. rewrite Forall_forall in Hk. apply Hk in Hc as [_ [->|(? & ? & ->)]]; done. }
  destruct o as [|cfg|a ok|a|a failed|a|a subs ask|a ask| | | |id|d| | |st|x ch|m ask];
    cbn -[create_child spawn on_spawn on_create on_init on_shutdown_trigger on_shutdown_confirm remove_child handle_shutdown handle_start on_spawn_timer deactivate] in H; try done.
  2-15: split; [|by apply Hcr].
  - destruct (take_first a (cm_spawnq s)) as [q|] eqn:Hq; [|injection H as <- <-; split; [done|intros c; apply not_elem_of_nil]].
    destruct (take_first_in _ _ _ Hq) as [Hin _]. destruct (v_q _ Hv a Hin) as (i & Ha & Hn & _).
    assert (Ha0 : a <> 0). { intros ->. destruct (v_self _ Hv i Ha). congruence. }
    unfold on_spawn in H. cbn [cm_map set_spawnq] in H. rewrite Ha in H. destruct (Hi a i Ha Ha0) as (_ & _ & Hac). rewrite Hac in H. cbn in H. injection H as <- <-.
    split; [done|intros c; apply not_elem_of_nil].
  - destruct (take_first a (cm_createq s)) as [q|]; [|by injection H as <- <-]. unfold on_create in H. cbn in H. destruct (cm_map s !! a); [|done]. by injection H as <- <-.
  - case_bool_decide; [|by injection H as <- <-]. unfold on_init in H. cbn [cm_map set_initout] in H.
    destruct failed; [repeat (case_match; simplify_eq; try done)|]. destruct (cm_map s !! a) as [i|] eqn:Ha; [|by injection H as <- <-].
    injection H as <- _. eapply (idle_put s); [done| |done]. intros Ha0. apply (Hi a i Ha Ha0).
  - unfold on_shutdown_trigger in H. destruct (cm_map s !! a) as [i|] eqn:Ha; [|done]. unfold request_shutdown in H. destruct (ci_shut i); [|by injection H as <- <-..].
    destruct (ci_actor i) as [y|] eqn:Hy; [|done]. assert (Ha0 : a = 0). { destruct (decide (a = 0)) as [|Hne]; [done|]. destruct (Hi a i Ha Hne) as [? _]. congruence. } subst a.
    assert (y = 0) by (by eapply v_key). subst y. rewrite N.eqb_refl in H.
    assert (Hc : forall x, idle_map (put_info (cancel_init s 0) 0 x)).
    { intros x. destruct (cancel_kept s 0) as (_ & Hk & _). eapply (idle_put s); [cbn; by rewrite Hk|done|done]. }
    destruct hp; [injection H as <- _; apply Hc|]. case_bool_decide; [injection H as <- _; apply Hc|].
    match type of H with context [request_shutdown_all ?x] => pose proof (idle_all x) as Hx; destruct (request_shutdown_all x) as [s1 e1] end.
    injection H as <- _. eapply (idle_put s1); [done|done|]. apply Hx. eapply idle_same; [|apply (Hc (i_shut i SConfirmed))]. done.
  - case_bool_decide; [|by injection H as <- <-]. unfold on_shutdown_confirm in H. cbn [cm_map set_shutout] in H. destruct (cm_map s !! a) as [i|] eqn:Ha; [|done].
    destruct (ci_actor i) as [y|] eqn:Hy; [|done]. assert (Ha0 : a = 0). { destruct (decide (a = 0)) as [|Hne]; [done|]. destruct (Hi a i Ha Hne) as [? _]. congruence. } subst a.
    destruct subs; [injection H as <- _; eapply (idle_put s); done|].
    destruct (remove_child _ _ _ _) as [[s2 e2]| |] eqn:Hr; try done. cbn in H. injection H as <- _. eapply idle_remove; [|exact Hr]. eapply (idle_put s); done.
  - case_bool_decide; [|by injection H as <- <-]. eapply idle_remove; [|exact H]. done.
  - by injection H as <- <-.
  - case_bool_decide; [|by injection H as <- <-]. unfold handle_shutdown in H. destruct (cm_map s !! 0) as [i|]; [|done].
    pose proof (idle_all (put_info s 0 (i_shut i SConfirmed))) as Hx. destruct (request_shutdown_all _) as [s1 e1]. cbn in Hx. injection H as <- _. apply Hx.
    eapply (idle_put s); done.
  - case_bool_decide; [|by injection H as <- <-]. unfold handle_start in H. destruct sync; [|by injection H as <- <-]. injection H as <- _.
    intros b j. cbn. rewrite map_lookup_imap. destruct (cm_map s !! b) as [i|] eqn:Hb; [|done]. cbn. intros Hx Hb0. injection Hx as <-. apply N.eqb_neq in Hb0 as Hb1. rewrite Hb1.
    by apply (Hi b i).
  - destruct (cm_timers s !! id) as [d|]; [|by injection H as <- <-]. destruct (_ <=? _); [|by injection H as <- <-].
    unfold on_spawn_timer in H. destruct (cm_spawning s !! id) as [key|] eqn:Hk; [|done]. cbn in H.
    destruct (v_spawning _ Hv _ _ Hk) as (Hid & _ & _ & i & Hx & Ht). rewrite Hx in H.
    assert (Hid2 : isout (i_timer i 0)). { destruct (decide (key = 0)) as [->|Hne]; [|destruct (Hi key i Hx Hne) as (? & ? & ?); done].
      exfalso. destruct (v_self _ Hv i Hx). destruct (v_timer _ Hv 0 i Hx); [congruence|]. congruence. }
    destruct (_ <=? _); injection H as <- _; eapply (idle_put s); done.
  - by injection H as <- <-.
  - by injection H as <- <-.
  - repeat (case_match; simplify_eq; try done).
  - repeat (case_match; simplify_eq; try done).
  - case_bool_decide; [|by injection H as <- <-]. unfold deactivate in H. destruct (_ && _); [by eapply idle_remove|by injection H as <- <-].
Qed.
(** The child manager agrees when nothing but the supervisor is alive. *)
Lemma vote_idle s s' e ev : allinv False s ev -> step s OVoteShutdown = Ok (s', e) -> EVoteShutdown true ∈ e -> idle_map s'.
Proof.
  intros Ha H Ht. cbn -[handle_shutdown] in H. case_bool_decide as Hst; [|injection H as <- <-; by apply elem_of_nil in Ht]. unfold handle_shutdown in H.
  destruct (cm_map s !! 0) as [i|] eqn:Hi; [|done].
  pose proof (ask_all_map (put_info s 0 (i_shut i SConfirmed))) as Hmm.
  pose proof (ask_events_in (put_info s 0 (i_shut i SConfirmed))) as Hev.
  destruct (all_own (put_info s 0 (i_shut i SConfirmed))) as (A1 & _).
  destruct (request_shutdown_all _) as [s1 e1] eqn:Hq. cbn in Hmm, Hev, A1. injection H as Hs1 He1. subst s1 e.
  apply elem_of_app in Ht as [Hx|Ht]; [by apply Hev in Hx as [(? & ? & ? & ? & _)|?]|].
  apply elem_of_list_singleton in Ht. injection Ht as Ht. symmetry in Ht. apply Nat.eqb_eq in Ht.
  intros a j Hj Ha0. destruct (is_alive (cm_state s') j) eqn:Hal.
  - exfalso. assert (2 <= active_actors s')%nat; [|lia]. destruct (v_self _ (ai_c _ _ _ Ha) _ Hi) as [Hs0 _].
    eapply (two_alive s' 0 a (ask_child (i_shut i SConfirmed)) j); try done; unfold is_alive.
    + rewrite Hmm, lookup_fmap. cbn. by rewrite lookup_insert.
    + rewrite (proj1 (proj2 (proj2 (ask_child_fields _)))). cbn. by rewrite Hs0, bool_decide_true.
  - unfold is_alive in Hal. rewrite A1, Hst in Hal. cbn in Hal. apply orb_false_iff in Hal as [Hal H3]. apply orb_false_iff in Hal as [H1 H2].
    apply bool_decide_eq_false in H1. apply negb_false_iff, N.eqb_eq in H2. rewrite andb_true_r in H3. split_and!; try done.
    destruct (ci_actor j); [|done]. destruct H1. by eexists.
Qed.
End steps.
