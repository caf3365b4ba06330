(** C73: lost spawners, and who tells the supervisor to vote again. *)
From stdpp Require Import base list gmap.
From Verif Require Import Base ChildMgrModel ChildMgrSpec ChildMgrProofs ChildMgrTrace ChildMgrFacts FamilyModel FamilySpec FamilySteps FamilyFold FamilyInv FamilyProofs FamilyEndSpec FamilyEndProofs FamilyEndMain.
From Verif Require FlowSpec FlowInv FlowProofs SystemProofs.
Open Scope N_scope.

Lemma two_of s : (2 <= active_actors s)%nat -> exists a b i j, a <> b /\ cm_map s !! a = Some i /\ cm_map s !! b = Some j /\
  is_alive (cm_state s) i = true /\ is_alive (cm_state s) j = true.
Proof.
  unfold active_actors. intros H.
  assert (Hin : forall p, p ∈ List.filter (fun '(_, i) => is_alive (cm_state s) i) (map_to_list (cm_map s)) -> cm_map s !! p.1 = Some p.2 /\ is_alive (cm_state s) p.2 = true).
  { intros [a i] Hp. apply elem_of_list_In, filter_In in Hp as [Hp Ha]. split; [|done]. apply elem_of_list_In, elem_of_map_to_list in Hp. done. }
  assert (Hnd : NoDup (List.filter (fun '(_, i) => is_alive (cm_state s) i) (map_to_list (cm_map s)))).
  { apply NoDup_ListNoDup, List.NoDup_filter, NoDup_ListNoDup, NoDup_map_to_list. }
  destruct (List.filter _ _) as [|[a i] [|[b j] l]]; cbn in H; [lia|lia|].
  destruct (Hin (a, i) ltac:(left)) as [H1 H2]. destruct (Hin (b, j) ltac:(right; left)) as [H3 H4]. cbn in *.
  exists a, b, i, j. split_and!; try done. intros <-. rewrite H1 in H3. injection H3 as <-. apply NoDup_cons in Hnd as [Hnd _]. apply Hnd. left.
Qed.
Lemma still s s' (f : N -> N) : (2 <= active_actors s)%nat -> (forall a b i j, cm_map s !! a = Some i -> cm_map s !! b = Some j -> f a = f b -> a = b) ->
  (forall a i, cm_map s !! a = Some i -> is_alive (cm_state s) i = true -> exists i', cm_map s' !! f a = Some i' /\ is_alive (cm_state s') i' = true) ->
  (2 <= active_actors s')%nat.
Proof.
  intros H Hf Hk. destruct (two_of s H) as (a & b & i & j & Hab & Hi & Hj & Ai & Aj). destruct (Hk a i Hi Ai) as (i' & Hi' & Ai'). destruct (Hk b j Hj Aj) as (j' & Hj' & Aj').
  eapply (two_alive s' (f a) (f b)); try done. intros E. by apply Hab, (Hf a b i j).
Qed.
Lemma still0 s s' : (2 <= active_actors s)%nat ->
  (forall a i, cm_map s !! a = Some i -> is_alive (cm_state s) i = true -> exists i', cm_map s' !! a = Some i' /\ is_alive (cm_state s') i' = true) ->
  (2 <= active_actors s')%nat.
Proof. intros H Hk. by apply (still s s' id H). Qed.
Lemma still_put s s' a i i' : (2 <= active_actors s)%nat -> cm_map s !! a = Some i -> cm_map s' = <[a := i']> (cm_map s) -> cm_state s' = cm_state s ->
  (is_alive (cm_state s) i = true -> is_alive (cm_state s) i' = true) -> (2 <= active_actors s')%nat.
Proof.
  intros H Hi Hm Hst Ha. apply (still0 s s' H). intros b j Hj Hal. rewrite Hm, Hst. destruct (decide (a = b)) as [->|Hab].
  - rewrite lookup_insert. rewrite Hi in Hj. injection Hj as <-. eauto.
  - rewrite lookup_insert_ne by done. eauto.
Qed.
Lemma still_same s s' : (2 <= active_actors s)%nat -> cm_map s' = cm_map s -> cm_state s' = cm_state s -> (2 <= active_actors s')%nat.
Proof. intros H Hm Hst. apply (still0 s s' H). intros a i Hi Ha. rewrite Hm, Hst. eauto. Qed.

Section cm.
Context (hp : bool) (policy : spolicy) (sync : bool).
Notation step := (cstep hp policy sync).

Lemma remove_tells s a ask s' e : remove_child policy s a ask = Ok (s', e) -> cm_state s = AShuttingDown -> (active_actors s' <= 1)%nat -> EShutdownContinue ∈ e.
Proof.
  intros H Hst Ha. unfold remove_child in H. destruct (cm_map s !! a) as [i|] eqn:Hi; [|done].
  rewrite (bool_decide_false (cm_state s = AInitializing)) in H by (by rewrite Hst). cbn [andb] in H. destruct (ci_actor i) as [c|] eqn:Hc; [|done].
  destruct (cancel_init_eq s c) as [x Hx]. rewrite Hx in H. cbn [cm_state set_initout set_map] in H. rewrite Hst in H. cbn [rank N.leb N.compare Pos.compare Pos.compare_cont andb] in H.
  cbn -[active_actors init_continue] in H. injection H as <- <-. apply elem_of_list_further. rewrite Hst.
  rewrite (proj2 (Nat.leb_le _ _) Ha), bool_decide_true by done. by left.
Qed.
Lemma actor_alive st i : is_Some (ci_actor i) -> is_alive st i = true.
Proof. intros H. unfold is_alive. by rewrite bool_decide_true. Qed.
Lemma timer_alive st i : ci_timer i <> 0 -> is_alive st i = true.
Proof. intros H. unfold is_alive. rewrite (proj2 (N.eqb_neq _ _) H). by rewrite orb_true_r. Qed.
Lemma same_alive st i i' : ci_actor i' = ci_actor i -> ci_timer i' = ci_timer i -> ci_active i' = ci_active i -> is_alive st i' = is_alive st i.
Proof. intros H1 H2 H3. unfold is_alive. by rewrite H1, H2, H3. Qed.

Lemma ask_tells s s' e : request_shutdown_all s = (s', e) -> cm_state s = AShuttingDown -> (2 <= active_actors s)%nat -> (active_actors s' <= 1)%nat -> EShutdownContinue ∈ e.
Proof.
  intros H Hst H2 H1. pose proof (ask_all_map s) as Hmm. rewrite H in Hmm. cbn in Hmm.
  assert (Hs' : cm_state s' = cm_state s). { destruct (ask_all_eq s) as [x Hx]. rewrite H in Hx. injection Hx as -> _. done. }
  destruct (two_of s H2) as (a & b & i & j & Hab & Hi & Hj & Ai & Aj).
  assert (Hd : (exists k l, cm_map s !! k = Some l /\ is_Some (dropped_timer l)) \/ (is_alive (cm_state s) (ask_child i) = true /\ is_alive (cm_state s) (ask_child j) = true)).
  { assert (Hx : forall l, is_alive (cm_state s) l = true -> is_Some (dropped_timer l) \/ is_alive (cm_state s) (ask_child l) = true).
    { intros l Hl. unfold dropped_timer, ask_child. destruct (ci_actor l) eqn:El.
      - right. destruct (ci_shut l); apply actor_alive; cbn; by rewrite El.
      - destruct (ci_timer l =? 0); [by right|left; eauto]. }
    destruct (Hx i Ai); [left; eauto|]. destruct (Hx j Aj); [left; eauto|by right]. }
  destruct Hd as [(k & l & Hl & Hdl)|[Di Dj]].
  - assert (He : e = concat (ask_events s <$> (map_to_list (cm_map s)).*2)). { unfold request_shutdown_all in H. by injection H as _ <-. }
    rewrite He. apply elem_of_list_In, in_concat. exists (ask_events s l). split.
    + apply elem_of_list_In, elem_of_list_fmap. exists l. split; [done|]. apply in_infos. by exists k.
    + apply elem_of_list_In. unfold ask_events. assert (asked l = None) as ->. { unfold asked, dropped_timer in *. destruct (ci_actor l); [by destruct Hdl|done]. }
      destruct Hdl as [z ->]. rewrite bool_decide_true by done. by left.
  - exfalso. assert (2 <= active_actors s')%nat; [|lia]. eapply (two_alive s' a b); try done; rewrite ?Hmm, ?lookup_fmap, ?Hi, ?Hj, ?Hs'; done.
Qed.

Lemma told_cm s co s' e : cinv s -> cm_state s = AShuttingDown -> (2 <= active_actors s)%nat -> step s co = Ok (s', e) -> (active_actors s' <= 1)%nat ->
  match co with OState _ | OFire _ | OChild _ _ => False | _ => True end ->
  EShutdownContinue ∈ e \/ exists a i, co = OOnSpawn a false /\ a ∈ cm_spawnq s /\ cm_map s !! a = Some i /\ ci_actor i = None /\ ci_active i = true /\
      sc_policy (ci_cfg i) <> RAlways /\ sc_policy (ci_cfg i) <> RFailOnly.
Proof.
  intros Hv Hst H2 H H1 Hok.
  assert (Hno : forall P : Prop, (2 <= active_actors s')%nat -> P) by (intros; lia).
  destruct co; try done; cbn -[remove_child on_spawn create_child request_shutdown_all handle_shutdown on_init on_create on_shutdown_trigger on_shutdown_confirm handle_start] in H.
  - apply Hno. injection H as <- _. apply (still0 s); [done|]. intros a i Hi Ha. exists i. cbn. split; [|done].
    rewrite lookup_insert_ne; [done|]. apply (v_fresh _ Hv) in Hi. lia.
  - apply Hno. injection H as <- _. apply (still0 s); [done|]. intros a i Hi Ha. exists i. cbn. split; [|done].
    rewrite lookup_insert_ne; [done|]. apply (v_fresh _ Hv) in Hi. lia.
  - destruct (take_first a (cm_spawnq s)) as [q|] eqn:Hq; [|injection H as <- _; lia].
    apply take_first_in in Hq as [Haq _]. destruct (v_q _ Hv a Haq) as (i & Hi & Hia & Hit).
    unfold on_spawn in H. cbn [cm_map set_spawnq] in H. rewrite Hi in H.
    destruct (ci_active i) eqn:Hac; cbn [negb] in H; [|apply Hno; injection H as <- _; by apply (still_same s)].
    pose proof (v_none _ Hv a i Hi Hia) as Hsid. rewrite (bool_decide_true (is_Some (ci_sid i))) in H by done. destruct ok; cbn [andb] in H.
    + apply Hno. cbn -[spawn_attempt] in H. injection H as <- _. apply (still s _ (fun x => if decide (x = a) then cm_next s else x)); [done|..].
      * intros x y ix iy Hx Hy. apply (v_fresh _ Hv) in Hx, Hy. destruct (decide (x = a)), (decide (y = a)); intros; subst; try done; lia.
      * intros x ix Hx Hal. cbn -[spawn_attempt]. destruct (decide (x = a)) as [->|Hxa].
        -- rewrite lookup_insert. eexists. split; [done|]. apply actor_alive. done.
        -- exists ix. split; [|done]. rewrite lookup_insert_ne; [by rewrite lookup_delete_ne|]. apply (v_fresh _ Hv) in Hx. lia.
    + cbn [cm_state set_spawnq] in H. rewrite (bool_decide_false (cm_state s = AInitializing)) in H by (by rewrite Hst). cbn [andb] in H.
      destruct (bool_decide (sc_policy (ci_cfg i) = RAlways) || bool_decide (sc_policy (ci_cfg i) = RFailOnly)) eqn:Ep.
      * apply Hno. cbn -[spawn_attempt] in H. injection H as <- _. eapply (still_put s _ a i); [done|done|done|done|]. intros _. apply timer_alive. cbn. lia.
      * right. apply orb_false_iff in Ep as [E1%bool_decide_eq_false_1 E2%bool_decide_eq_false_1]. exists a, i. by split_and!.
  - apply Hno. destruct (take_first a (cm_createq s)) as [q|]; [|by injection H as <- _]. unfold on_create in H. cbn in H.
    destruct (cm_map s !! a); [|done]. injection H as <- _. by apply (still_same s).
  - apply Hno. case_bool_decide; [|by injection H as <- _]. unfold on_init in H. cbn [cm_map set_initout cm_state cm_initreq] in H.
    rewrite (bool_decide_false (cm_state s = AInitializing)) in H by (by rewrite Hst). cbn [andb] in H. destruct failed.
    + destruct (cm_map s !! a) as [i|] eqn:Hi; [destruct (ci_actor i); [|done]|]; injection H as <- _; by apply (still_same s).
    + destruct (cm_map s !! a) as [i|] eqn:Hi; injection H as <- _; [|by apply (still_same s)]. eapply (still_put s _ a i); [done|done|done|done|]. intros <-. by apply same_alive.
  - unfold on_shutdown_trigger in H. destruct (cm_map s !! a) as [i|] eqn:Hi; [|done]. unfold request_shutdown in H.
    destruct (ci_shut i); [|injection H as <- _; lia..]. destruct (ci_actor i) as [c|] eqn:Hc; [|done]. destruct (cancel_init_eq s c) as [x Hx]. rewrite Hx in H.
    apply Hno. destruct (c =? 0); [destruct hp; [|cbn [cm_state set_initout] in H; rewrite bool_decide_true in H by done]|]; injection H as <- _;
      (eapply (still_put s _ a i); [done|done|done|done|]; intros _; apply actor_alive; cbn; by rewrite Hc).
  - case_bool_decide; [|injection H as <- _; lia]. unfold on_shutdown_confirm in H. cbn [cm_map set_shutout] in H. destruct (cm_map s !! a) as [i|] eqn:Hi; [|done].
    destruct (ci_actor i) as [c|] eqn:Hc; [|done]. destruct subs.
    + apply Hno. injection H as <- _. eapply (still_put s _ a i); [done|done|done|done|]. intros _. apply actor_alive. cbn. by rewrite Hc.
    + destruct (remove_child policy _ a ask) as [[s2 e2]| |] eqn:E; [|done..]. cbn [rbind] in H. injection H as <- <-. left. apply elem_of_app. left. eapply remove_tells; [exact E|done|done].
  - case_bool_decide; [|injection H as <- _; lia]. left. eapply remove_tells; [exact H|done|done].
  - injection H as <- _. lia.
  - rewrite bool_decide_true in H by done. unfold handle_shutdown in H. destruct (cm_map s !! 0) as [i|] eqn:Hi; [|done].
    destruct (request_shutdown_all _) as [s1 e1] eqn:E. injection H as <- <-. left. apply elem_of_app. left. eapply ask_tells; [exact E|done| |done].
    eapply (still_put s _ 0 i); [done|done|done|done|]. intros <-. by apply same_alive.
  - rewrite bool_decide_false in H by (by rewrite Hst). injection H as <- _. lia.
  - apply Hno. injection H as <- _. by apply (still_same s).
  - apply Hno. injection H as <- _. by apply (still_same s).
  - apply Hno. injection H as <- _. by case_bool_decide.
  - rewrite bool_decide_true in H by done. unfold deactivate in H. destruct (mapping_empty && _); [|injection H as <- _; lia]. left. eapply remove_tells; [exact H|done|done].
Qed.
End cm.

Section fam.
Context (hp : bool) (policy : spolicy) (sync : bool).
Notation step := (cstep hp policy sync).
Notation fstep := (fstep hp policy sync).

Lemma told s o s' e : cinv (f_cm s) -> cm_state (f_cm s) = AShuttingDown -> punctual s o -> o <> FShutDown -> fstep s o = Ok (s', e) ->
  (2 <= active_actors (f_cm s))%nat -> (active_actors (f_cm s') <= 1)%nat -> EShutdownContinue ∈ e \/ gives_up s o.
Proof.
  intros Hv Hst Hp Hn H H2 H1. assert (Hc := H). apply fstep_cases in Hc as [(M & HM & ->)|(x & co & Hc & Hf)].
  - exfalso. assert (2 <= active_actors (f_cm s'))%nat; [|lia]. rewrite HM. by apply (still_same (f_cm s)).
  - assert (Hv' : cinv (set_initout (f_cm s) x)) by (by apply FlowProofs.cinv_initout).
    assert (Hco : (exists st, co = OState st) \/ match co with OState _ => False | _ => True end) by (destruct co; eauto).
    destruct Hco as [[st ->]|Hco].
    { exfalso. cbn in Hc. rewrite Hst in Hc.
      assert (Hx : f_cm s' = set_initout (f_cm s) x \/ st = AShutDown) by (destruct st; cbn in Hc; try (injection Hc as <- _; by left); by right).
      destruct Hx as [Hx| ->]; [assert (2 <= active_actors (f_cm s'))%nat; [|lia]; rewrite Hx; by apply (still_same (f_cm s))|].
      cbn in Hf. destruct Hf as [->|[->| ->]]; [..|done].
      - cbn [FamilyModel.fstep] in H. rewrite bool_decide_false in H by (by rewrite Hst). injection H as <- _. lia.
      - cbn [FamilyModel.fstep] in H. destruct hp; [|injection H as <- _; lia]. apply manage_cm in H. cbn in H. rewrite Hst in H. cbn in H. injection H as H _.
        rewrite <- H in H1. lia. }
    destruct (told_cm hp policy sync _ co _ _ Hv' ltac:(done) H2 Hc H1) as [?|(a & i & -> & Ha & Hi & H3 & H4 & H5 & H6)]; [|by left|].
    + destruct co; try done. cbn in Hf. subst o. cbn in Hp. rewrite Hst in Hp. cbn in Hp. lia.
    + right. destruct Hf as (x1 & x2 & x3 & x4 & x5 & x6 & ->). exists a, i. done.
Qed.

Lemma told_run ops : forall s s' e ev, finv s ev -> cm_state (f_cm s) = AShuttingDown -> Forall of_children ops -> all_asked (f_cm s) -> run fstep s ops = Ok (s', e) ->
  (2 <= active_actors (f_cm s))%nat -> (active_actors (f_cm s') <= 1)%nat -> EShutdownContinue ∈ e.
Proof.
  induction ops as [|o ops IH]; intros s s' e ev Hfi Hst Ho Ha H H2 H1; [injection H as <- <-; lia|]. apply Forall_cons in Ho as [Ho Hos].
  destruct (children_internal o Ho) as (Hi & Hn & _). assert (Hord : orderly s o) by (by destruct o). assert (Hpu : punctual s o) by (by destruct o).
  destruct (step_fin hp policy sync s ev o Hfi Hord) as (s1 & e1 & E1 & Hf1). cbn [run] in H. rewrite E1 in H. cbn [rbind] in H.
  destruct (run fstep s1 ops) as [[s2 e2]| |] eqn:E2; [|done..]. cbn in H. injection H as <- <-.
  assert (Hv : cinv (f_cm s)) by (by destruct (fi_all _ _ Hfi)).
  destruct (calm_step hp policy sync s o s1 e1 Hi Hn Hv Hst E1) as (_ & Hst1 & _ & Ha1).
  apply elem_of_app. destruct (decide (active_actors (f_cm s1) <= 1)%nat) as [Hd|Hd].
  - left. destruct (told s o s1 e1 Hv Hst Hpu Hn E1 H2 Hd) as [?|Hg]; [done|]. exfalso. destruct o; try done. destruct ok; [done|]. destruct Hg as (a & i & _ & Hai & H3 & H4 & _).
    specialize (Ha a i Hai). rewrite H3 in Ha. destruct Ha. congruence.
  - right. eapply IH; [exact Hf1|done|done|by apply Ha1|exact E2|lia|done].
Qed.

(** Everybody was asked: the children alone lead to a vote which succeeds. *)
Lemma driven s ev : good PWorking s ev -> all_asked (f_cm s) -> (2 <= active_actors (f_cm s))%nat ->
  exists ops s' e s2 e2, Forall of_children ops /\ guarded fstep orderly s ops /\ run fstep s ops = Ok (s', e) /\ EShutdownContinue ∈ e /\
    fstep s' FVote = Ok (s2, e2) /\ EVoteShutdown true ∈ e2.
Proof.
  intros Hg Ha H2. destruct (quiesce hp policy sync PWorking ltac:(done) (S (FlowInv.wfam s)) s ev ltac:(lia) Hg) as (ops & s' & e & F1 & G1 & R1 & Hg1 & _ & Ha1 & Hr1). specialize (Ha1 Ha).
  destruct (rest_vote hp policy sync s' _ Hg1 Hr1 Ha1) as (s2 & e2 & Hv2 & He2). exists ops, s', e, s2, e2. split_and!; try done.
  eapply (told_run ops s s' e ev); try done; [apply Hg|apply Hg|].
  destruct (decide (active_actors (f_cm s') <= 1)%nat); [done|]. exfalso. destruct (two_of (f_cm s') ltac:(lia)) as (a & b & i & j & Hab & Hi & Hj & Ai & Aj).
  assert (Hx : forall k l, cm_map (f_cm s') !! k = Some l -> is_alive (cm_state (f_cm s')) l = true -> k = 0).
  { intros k l Hl Al. destruct (decide (k = 0)) as [|Hk]; [done|]. exfalso. pose proof (Ha1 k l Hl) as Hak. destruct (ci_actor l) as [c|] eqn:Ec.
    - pose proof (ai_h _ _ _ (fi_all _ _ (gd_f _ _ _ Hg1))) as Hh. pose proof (h_created _ _ Hh k l Hl Hk ltac:(by rewrite Ec)) as Hcr.
      destruct (rested PWorking s' _ ltac:(done) Hg1 Hr1 Ha1 k Hcr) as [_ Hrm]. destruct (h_removed _ _ Hh k Hrm) as [_ Hx]. specialize (Hx l Hl). congruence.
    - destruct Hak as [Hk1 Hk2]. unfold is_alive in Al. rewrite Ec, Hk1, Hk2, bool_decide_false in Al by (by intros []). done. }
  apply Hab. by rewrite (Hx a i Hi Ai), (Hx b j Hj Aj).
Qed.

Lemma lost_no_vote s o s' e a : cinv (f_cm s) -> 5 <= rank (cm_state (f_cm s)) -> lost (f_cm s) a -> fstep s o = Ok (s', e) -> EVoteShutdown true ∉ e.
Proof.
  intros Hv Hr Hl H He. destruct (lost_fstep hp policy sync s o s' e a Hv Hr Hl H) as (Hv1 & Hr1 & i & Hi & H1 & H2 & H3 & H4).
  apply fstep_cases in H as [(M & _ & ->)|(x & co & Hc & _)]; [by apply elem_of_nil in He|].
  destruct (ChildMgrFacts.vote_shutdown hp policy sync _ _ _ _ _ Hc He) as (Hst & i0 & Hi0 & Hs' & _ & Hb). cbn in Hst, Hi0.
  symmetry in Hb. apply Nat.eqb_eq in Hb.
  assert (H0 : exists j, cm_map (f_cm s') !! 0 = Some j). { rewrite Hs', ask_all_map, lookup_fmap. cbn. rewrite lookup_insert. by eexists. } destruct H0 as [j Hj].
  assert (Hst' : cm_state (f_cm s') = AShuttingDown). { rewrite Hs'. destruct (ask_all_eq (put_info (set_initout (f_cm s) x) 0 (i_shut i0 SConfirmed))) as [y ->]. done. }
  assert (2 <= active_actors (f_cm s'))%nat; [|lia]. destruct (v_self _ Hv1 _ Hj) as [Hj0 _]. eapply (two_alive _ 0 a); try done.
  - intros <-. rewrite Hj in Hi. injection Hi as <-. congruence.
  - apply actor_alive. by rewrite Hj0.
  - unfold is_alive. rewrite H3, Hst'. cbn. by rewrite orb_true_r.
Qed.
Lemma lost_run ops : forall s s' e a, cinv (f_cm s) -> 5 <= rank (cm_state (f_cm s)) -> lost (f_cm s) a -> run fstep s ops = Ok (s', e) -> lost (f_cm s') a /\ EVoteShutdown true ∉ e.
Proof.
  induction ops as [|o ops IH]; intros s s' e a Hv Hr Hl H; [injection H as <- <-; split; [done|apply not_elem_of_nil]|].
  cbn [run] in H. destruct (fstep s o) as [[s1 e1]| |] eqn:E1; [|done..]. cbn [rbind] in H. destruct (run fstep s1 ops) as [[s2 e2]| |] eqn:E2; [|done..]. cbn in H. injection H as <- <-.
  destruct (lost_fstep hp policy sync s o s1 e1 a Hv Hr Hl E1) as (Hv1 & Hr1 & Hl1). pose proof (lost_no_vote s o s1 e1 a Hv Hr Hl E1) as Hn.
  destruct (IH s1 s2 e2 a Hv1 Hr1 Hl1 E2) as [H1 H2]. split; [done|]. rewrite elem_of_app. tauto.
Qed.
End fam.
