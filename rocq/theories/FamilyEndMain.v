(** C73: a supervisor which is told to end can end, unless a spawner is lost. *)
From stdpp Require Import base list gmap.
From Verif Require Import Base ChildMgrModel ChildMgrSpec ChildMgrProofs ChildMgrTrace ChildMgrFacts FamilyModel FamilySpec FamilySteps FamilyFold FamilyInv FamilyProofs FamilyEndSpec FamilyEndProofs.
From Verif Require FlowSpec FlowInv FlowProofs SystemProofs.
Open Scope N_scope.
Notation wfam := FlowInv.wfam.
Notation moved := FlowSpec.moved.

Lemma guarded_app {S O E : Type} (step : S -> O -> res (S * list E)) ok s o1 o2 s1 e1 :
  guarded step ok s o1 -> run step s o1 = Ok (s1, e1) -> guarded step ok s1 o2 -> guarded step ok s (o1 ++ o2).
Proof.
  revert s e1. induction o1 as [|o o1 IH]; intros s e1 Hg Hr H2; cbn in *; [by injection Hr as <- _|].
  destruct Hg as [Ho Hg]. split; [done|]. destruct (step s o) as [[s' e']| |]; [|done..]. cbn in Hr. destruct (run step s' o1) as [[s2 e2]| |] eqn:E2; [|done..]. cbn in Hr. injection Hr as -> <-.
  by eapply IH.
Qed.

Section main.
Context (hp : bool) (policy : spolicy) (sync : bool).
Notation step := (cstep hp policy sync).
Notation manage := (FamilyModel.manage hp policy sync).
Notation manage0 := (FamilyModel.manage0 hp policy sync).
Notation fstep := (fstep hp policy sync).

Lemma phase_manage fo ea s co s' e : cinv (f_cm s) -> match co with OChild _ _ => False | _ => True end -> co <> OVoteShutdown -> manage fo ea s co = Ok (s', e) -> f_phase s' = f_phase s.
Proof.
  intros Hv Hno Ho H. unfold FamilyModel.manage in H. destruct (step (f_cm s) co) as [[cm e1]| |] eqn:E; [|done..]. cbn in H. injection H as <- <-.
  pose proof (ef_kind _ _ _ _ (step_eff hp policy sync _ _ _ _ Hv Hno E)) as Hk. rewrite Forall_forall in Hk. cbn. rewrite fold_phase; [done|]. intros b Hb. by apply Hk in Hb.
Qed.
Lemma handles_phase s c m abn esc : f_phase (child_handles s c m abn esc) = f_phase s.
Proof.
  unfold child_handles. destruct (decide _); [done|]. destruct (cm_children (f_cm s) !! c); [|done]. destruct m; try done.
  unfold own, from. destruct esc; repeat destruct (decide _); done.
Qed.
Lemma phase_children s o s' e : cinv (f_cm s) -> of_children o -> fstep s o = Ok (s', e) -> f_phase s' = f_phase s.
Proof.
  intros Hv Ho H. destruct o; try done; cbn [FamilyModel.fstep] in H; unfold FamilyModel.manage0 in H.
  - destruct (f_q s) as [|m q]; [by injection H as <- <-|]. unfold deliver, FamilyModel.manage0 in H.
    assert (Hm : forall fo ea t co, f_cm t = f_cm s -> f_phase t = f_phase s -> manage fo ea t co = Ok (s', e) -> match co with OChild _ _ => False | _ => True end -> co <> OVoteShutdown -> f_phase s' = f_phase s).
    { intros fo ea t co Ht <- H1 H2 H3. eapply phase_manage; [|done..]. by rewrite Ht. }
    assert (Hcf : forall t c, f_cm t = f_cm s -> f_phase t = f_phase s -> confirm hp policy sync t c subs ask = Ok (s', e) -> f_phase s' = f_phase s).
    { intros t c Ht <-. unfold confirm, FamilyModel.manage0. destruct (manage false false t _) as [[s1 e1]| |] eqn:E1; [|done..]. cbn. intros [= <- <-].
      apply phase_manage in E1; [|by rewrite Ht|done..]. by destruct subs. }
    assert (Htc : forall c m', Ok (to_child (set_q s q) c m' abn esc, []) = Ok (s', e) -> f_phase s' = f_phase s).
    { intros c m' [= <- <-]. clear. unfold to_child. destruct (decide (c ∈ f_foreign (set_q s q))); [done|]. by rewrite handles_phase. }
    destruct m; try (destruct (decide (0 ∈ f_bye _)); [by injection H as <- <-|]).
    + by eapply Hm; [| |exact H|..].
    + by eapply Hm; [| |exact H|..].
    + destruct (c =? 0); [|by eapply Htc]. destruct (decide _); [by injection H as <- <-|]. by eapply Hm; [| |exact H|..].
    + destruct (decide _); [|by injection H as <- <-]. by eapply Hm; [| |exact H|..].
    + apply phase_manage in H; [done|by apply FlowProofs.cinv_initout|done..].
    + by eapply Hm; [| |exact H|..].
    + by eapply Htc.
    + destruct (decide _); [|by injection H as <- <-]. by eapply Hcf; [| |exact H].
    + by eapply Hcf; [| |exact H].
    + by eapply Hm; [| |exact H|..].
    + destruct (c =? 0); [by injection H as <- <-|by eapply Htc].
  - destruct (downl s c) as [|m l]; injection H as <- <-; [done|]. by rewrite handles_phase.
  - destruct (upl s c) as [|m l]; injection H as <- <-; done.
  - destruct (child_ready s c AShuttingDown) as [ch|]; [|by injection H as <- <-]. destruct (decide _); injection H as <- <-; [|done].
    unfold from. by destruct (decide _).
Qed.

Record good (p : phase) (s : fstate) (ev : list cevent) : Prop := {
  gd_f : finv s ev; gd_st : cm_state (f_cm s) = AShuttingDown; gd_ph : f_phase s = p; gd_l : no_lost (f_cm s) }.
Lemma good_cinv p s ev : good p s ev -> cinv (f_cm s).
Proof. intros Hg. by destruct (fi_all _ _ (gd_f _ _ _ Hg)). Qed.
Lemma good_bye p s ev : p <> PLeft -> good p s ev -> 0 ∉ f_bye s.
Proof. intros Hp Hg Hb. apply (fi_bye _ _ (gd_f _ _ _ Hg)) in Hb. by rewrite (gd_ph _ _ _ Hg) in Hb. Qed.

Lemma plain_fits o co : internal o -> fits o co -> (o <> FShutDown) -> plain_op co.
Proof.
  intros Hi Hf Hn. destruct co; try done; cbn in Hf.
  - destruct Hf as (x & y & ->). done.
  - by subst.
  - destruct ok; [|done]. by destruct Hf as (x1 & x2 & x3 & x4 & x5 & x6 & ->).
  - by subst.
  - by destruct Hf as [->|[->| ->]].
Qed.
(** Steps of the supervisor's own shutdown except for the last one. *)
Lemma calm_step s o s' e : internal o -> o <> FShutDown -> cinv (f_cm s) -> cm_state (f_cm s) = AShuttingDown -> fstep s o = Ok (s', e) ->
  nonew e /\ cm_state (f_cm s') = AShuttingDown /\ (no_lost (f_cm s) -> no_lost (f_cm s')) /\ (all_asked (f_cm s) -> all_asked (f_cm s')).
Proof.
  intros Hi Hn Hv Hst H. assert (Hpu : punctual s o) by (by destruct o).
  assert (Hl : no_lost (f_cm s) -> no_lost (f_cm s')). { intros Hl. by destruct (no_lost_fstep hp policy sync s o s' e Hv Hpu Hl H). }
  apply fstep_cases in H as [(M & -> & ->)|(x & co & H & Hf)].
  - split_and!; try done. constructor.
  - assert (Hv' : cinv (set_initout (f_cm s) x)) by (by apply FlowProofs.cinv_initout).
    destruct (cstep_plain hp policy sync _ co _ _ (plain_fits o co Hi Hf Hn) (Hst : cm_state (set_initout (f_cm s) x) = _) H) as [H1 H2].
    split_and!; try done. intros Ha. assert (Hms := step_moves hp policy sync False _ _ _ _ Hv' ltac:(done) H).
    eapply asked_moves; [exact Hms|done|cbn; by rewrite Hst|done|done].
Qed.
Lemma children_internal o : of_children o -> internal o /\ o <> FShutDown /\ o <> FVote.
Proof. by destruct o. Qed.
Lemma nonew_births e : nonew e -> FlowSpec.births e = 0%nat.
Proof.
  intros Hn. unfold FlowSpec.births. replace (List.filter FlowSpec.is_created e) with (@nil cevent); [done|]. symmetry. induction Hn as [|x l Hx _ IH]; [done|]. cbn.
  by destruct x.
Qed.
Lemma advance p s ev o : p <> PLeft -> of_children o -> good p s ev -> exists s' e, fstep s o = Ok (s', e) /\ good p s' (ev ++ e) /\ nonew e /\
  (all_asked (f_cm s) -> all_asked (f_cm s')) /\ (moved s o + wfam s' <= wfam s)%nat.
Proof.
  intros Hp Ho Hg. destruct (children_internal o Ho) as (Hi & Hn & Hv). assert (Hord : orderly s o) by (by destruct o).
  destruct (step_fin hp policy sync s ev o (gd_f _ _ _ Hg) Hord) as (s' & e & H & Hf). exists s', e. split; [done|].
  pose proof (good_cinv _ _ _ Hg) as Hcv. destruct (calm_step s o s' e Hi Hn Hcv (gd_st _ _ _ Hg) H) as (H1 & H2 & H3 & H4).
  split; [|split; [done|split; [done|]]].
  - split; [done|done| |by apply H3, Hg]. rewrite <- (gd_ph _ _ _ Hg). by eapply phase_children.
  - destruct (FlowProofs.fstep_cost hp policy sync s o s' e Hcv H) as [Hc _]. rewrite (nonew_births e H1) in Hc. assert (FlowSpec.outside o = 0%nat) as Ho0 by (by destruct o). lia.
Qed.

(** Nothing is under way and no child can finish. *)
Definition resting (s : fstate) : Prop := settled s /\ forall c ch, c <> 0 -> cm_children (f_cm s) !! c = Some ch -> ch_state ch = AShuttingDown -> c ∉ f_bye s.
Definition under_way (s : fstate) : Prop := f_q s <> [] \/ exists c, upl s c <> [] \/ downl s c <> [].
Definition D0 : fop := FDeliver false false false false false false false.
Lemma mover s : under_way s -> exists o, of_children o /\ moved s o = 1%nat.
Proof.
  intros [Hq|(c & [Hu|Hd])].
  - exists D0. split; [done|]. cbn. by destruct (f_q s).
  - exists (FUp c). split; [done|]. cbn. by destruct (upl s c).
  - exists (FChild c false false). split; [done|]. cbn. by destruct (downl s c).
Qed.
Lemma under_way_or s : under_way s \/ (f_q s = [] /\ forall c, upl s c = [] /\ downl s c = []).
Proof.
  destruct (decide (f_q s = [])) as [Hq|Hq]; [|left; by left].
  destruct (decide (map_Forall (fun _ l => l = []) (f_up s))) as [Hu|Hu]; cycle 1.
  { apply map_not_Forall in Hu as (c & l & Hl & Hx); [|apply _]. left. right. exists c. left. unfold upl. by rewrite Hl. }
  destruct (decide (map_Forall (fun _ l => l = []) (f_down s))) as [Hd|Hd]; cycle 1.
  { apply map_not_Forall in Hd as (c & l & Hl & Hx); [|apply _]. left. right. exists c. right. unfold downl. by rewrite Hl. }
  right. split; [done|]. intros c. unfold upl, downl. split; [destruct (f_up s !! c) eqn:E; [by apply Hu in E|done]|destruct (f_down s !! c) eqn:E; [by apply Hd in E|done]].
Qed.
Definition able (s : fstate) (c : N) : bool :=
  match cm_children (f_cm s) !! c with Some ch => bool_decide (c <> 0 /\ ch_state ch = AShuttingDown /\ c ∈ f_bye s) | None => false end.

Lemma quiesce p : p <> PLeft -> forall n s ev, (wfam s < n)%nat -> good p s ev ->
  exists ops s' e, Forall of_children ops /\ guarded fstep orderly s ops /\ run fstep s ops = Ok (s', e) /\ good p s' (ev ++ e) /\ nonew e /\
    (all_asked (f_cm s) -> all_asked (f_cm s')) /\ resting s'.
Proof.
  intros Hp n. induction n as [|n IH]; intros s ev Hn Hg; [lia|].
  assert (Hord : forall t o, of_children o -> orderly t o) by (intros t o Ho; by destruct o).
  assert (Hgo : forall s1 ev1, good p s1 ev1 -> under_way s1 -> (wfam s1 <= n)%nat -> exists ops s' e, Forall of_children ops /\ guarded fstep orderly s1 ops /\ run fstep s1 ops = Ok (s', e) /\
    good p s' (ev1 ++ e) /\ nonew e /\ (all_asked (f_cm s1) -> all_asked (f_cm s')) /\ resting s').
  { intros s1 ev1 Hg1 Hu Hw. destruct (mover s1 Hu) as (o & Ho & Hm). destruct (advance p s1 ev1 o Hp Ho Hg1) as (s2 & e2 & H2 & Hg2 & Hn2 & Ha2 & Hw2).
    destruct (IH s2 (ev1 ++ e2)) as (ops & s' & e & Hops & Hgu & Hr & Hg' & Hn' & Ha' & Hre); [lia|done|].
    exists (o :: ops), s', (e2 ++ e). split_and!; try done.
    - by constructor.
    - cbn. split; [by apply Hord|]. by rewrite H2.
    - cbn. rewrite H2. cbn. by rewrite Hr.
    - by rewrite (assoc_L (++)).
    - by apply nonew_app.
    - auto. }
  destruct (under_way_or s) as [Hu|[Hq Hl]]; [apply Hgo; [done|done|lia]|].
  pose proof (good_bye _ _ _ Hp Hg) as Hb.
  destruct (decide (map_Forall (fun c _ => able s c = false) (cm_children (f_cm s)))) as [Hf|Hf].
  - exists [], s, []. rewrite app_nil_r. split_and!; try done; try by constructor. split; [done|]. intros c ch Hc Hch Hst Hby.
    specialize (Hf c ch Hch). unfold able in Hf. rewrite Hch in Hf. rewrite bool_decide_true in Hf by done. done.
  - apply map_not_Forall in Hf as (c & ch & Hch & Hx); [|apply _]. apply not_false_is_true in Hx. unfold able in Hx. rewrite Hch in Hx. apply bool_decide_eq_true_1 in Hx as (Hc & Hst & Hby).
    destruct (advance p s ev (FChildDone c) Hp I Hg) as (s1 & e1 & H1 & Hg1 & Hn1 & Ha1 & Hw1). cbn in Hw1.
    assert (Hu : under_way s1).
    { cbn [FamilyModel.fstep] in H1. unfold child_ready in H1. rewrite Hch, bool_decide_true, decide_True in H1 by done. injection H1 as <- <-. unfold from. cbn. destruct (decide (c ∈ f_foreign s)).
      - right. exists c. left. unfold upl. cbn. rewrite lookup_insert. cbn. by destruct (default [] (f_up s !! c)).
      - left. cbn. by rewrite Hq. }
    destruct (Hgo s1 (ev ++ e1) Hg1 Hu) as (ops & s' & e & Hops & Hgu & Hr & Hg' & Hn' & Ha' & Hre); [lia|].
    exists (FChildDone c :: ops), s', (e1 ++ e). split_and!; try done.
    + by constructor.
    + cbn [guarded]. split; [done|]. by rewrite H1.
    + cbn [run]. rewrite H1. cbn. by rewrite Hr.
    + by rewrite (assoc_L (++)).
    + by apply nonew_app.
    + auto.
Qed.

Lemma rested p s ev : p <> PLeft -> good p s ev -> resting s -> all_asked (f_cm s) ->
  forall c, ECreated c ∈ ev -> state_of s c = Some AShutDown /\ removed c ev.
Proof.
  intros Hp Hg [(Hq & Hl & Hb) Hre] Ha c Hc. pose proof (gd_f _ _ _ Hg) as Hf. pose proof (fi_rinv _ _ Hf Hb) as R. pose proof (ai_h _ _ _ (fi_all _ _ Hf)) as Hh.
  destruct (r_created _ _ _ R c Hc) as [ch Hch]. destruct (h_next _ _ Hh c Hc) as [Hc0 _]. pose proof (r_child _ _ _ R c ch Hc0 Hch) as P.
  assert (HU : UP s c = []). { unfold UP. destruct (Hl c) as [-> _]. by rewrite Hq. }
  assert (HD : DN s c = []). { unfold DN. destruct (Hl c) as [_ ->]. by rewrite Hq. }
  assert (Hst : ch_state ch = AShutDown).
  { destruct (h_live _ _ Hh c Hc) as [(i & Hi & Hia)|Hr]; [|by destruct (p_rem _ _ _ _ _ P Hr)].
    specialize (Ha c i Hi). rewrite Hia in Ha. pose proof (h_asked _ _ Hh c i Hi Hc0 ltac:(by rewrite Hia) Ha) as Hask.
    pose proof (p_dn _ _ _ _ _ P) as Hd. rewrite HD, decide_False in Hd by done.
    destruct Hd as [(_ & H2 & _)|[(_ & _ & _ & H4)|[(_ & _ & _ & H4)|(H1 & _ & H3 & _)]]]; [done|exfalso..|].
    - destruct H4 as [?|[?|[_ [?|?]]]]; done.
    - destruct H4 as [?|[[_ ?]|(_ & _ & ?)]]; done.
    - specialize (Hre c ch Hc0 Hch). destruct (ch_state ch); cbn in H1; try lia; [|done]. by destruct Hre. }
  split; [unfold state_of; rewrite Hch; cbn; by rewrite Hst|].
  destruct (p_gone _ _ _ _ _ P Hst HU) as [?|Hu]; [done|done|]. exfalso.
  destruct (p_un _ _ _ _ _ P Hu) as (_ & _ & Hx). rewrite Hq in Hx. by eapply elem_of_nil, Hx.
Qed.

Lemma react_may fo ea s x : f_phase (react hp fo ea s x) = f_phase s \/ f_phase (react hp fo ea s x) = PAgreed.
Proof. destruct x; cbn; unfold from; repeat (case_match; cbn); auto. Qed.
Lemma fold_may fo ea e : forall s, f_phase (foldl (react hp fo ea) s e) = f_phase s \/ f_phase (foldl (react hp fo ea) s e) = PAgreed.
Proof.
  induction e as [|x e IH]; intros s; [by left|]. cbn. destruct (IH (react hp fo ea s x)) as [->| ->]; [apply react_may|by right].
Qed.
Lemma fold_agreed fo ea e : EVoteShutdown true ∈ e -> forall s, f_phase (foldl (react hp fo ea) s e) = PAgreed.
Proof.
  induction e as [|x e IH]; intros He s; [by apply elem_of_nil in He|]. cbn. apply elem_of_cons in He as [<-|He]; [|by apply IH].
  destruct (fold_may fo ea e (react hp fo ea s (EVoteShutdown true))) as [->| ->]; done.
Qed.
Lemma vote_phase s s' e : f_phase s = PWorking -> fstep s FVote = Ok (s', e) -> f_phase s' <> PLeft /\ (EVoteShutdown true ∈ e -> f_phase s' = PAgreed).
Proof.
  intros Hp H. cbn [FamilyModel.fstep] in H. rewrite bool_decide_true in H by done. unfold FamilyModel.manage0, FamilyModel.manage in H.
  destruct (step (f_cm s) OVoteShutdown) as [[cm e1]| |]; [|done..]. cbn in H. injection H as <- <-. cbn. split.
  - destruct (fold_may false false e1 (set_cm s cm)) as [Hx|Hx]; [cbn in Hx; rewrite Hp in Hx|]; congruence.
  - intros He. by apply fold_agreed.
Qed.
Lemma fold_un fo ea e : EVoteShutdown true ∉ e -> forall s, f_phase (foldl (react hp fo ea) s e) = f_phase s.
Proof.
  induction e as [|x e IH]; intros He s; [done|]. apply not_elem_of_cons in He as [Hx He]. cbn. rewrite IH by done.
  destruct x as [| | | | | | | | | | | | | | | | | | |b|]; try (by apply react_phase). all: try by destruct b.
Qed.
Lemma agreed_vote s s' e : f_phase s = PWorking -> fstep s FVote = Ok (s', e) -> f_phase s' = PAgreed -> EVoteShutdown true ∈ e.
Proof.
  intros Hp H Ha. cbn [FamilyModel.fstep] in H. rewrite bool_decide_true in H by done. unfold FamilyModel.manage0, FamilyModel.manage in H.
  destruct (step (f_cm s) OVoteShutdown) as [[cm e1]| |]; [|done..]. cbn in H. injection H as <- <-.
  destruct (decide (EVoteShutdown true ∈ e1)) as [|Hn]; [done|]. exfalso. cbn in Ha. rewrite fold_un in Ha by done. cbn in Ha. congruence.
Qed.
Lemma vote_asks s s' e : cm_state (f_cm s) = AShuttingDown -> f_phase s = PWorking -> cm_spawnq (f_cm s) = [] -> no_lost (f_cm s) ->
  fstep s FVote = Ok (s', e) -> all_asked (f_cm s').
Proof.
  intros Hst Hp Hsq Hl H. cbn [FamilyModel.fstep] in H. rewrite bool_decide_true in H by done. apply manage_cm in H. cbn -[handle_shutdown] in H. rewrite bool_decide_true in H by done.
  unfold handle_shutdown in H. destruct (cm_map (f_cm s) !! 0) as [i0|] eqn:H0; [|done].
  pose proof (ask_all_map (put_info (f_cm s) 0 (i_shut i0 SConfirmed))) as Hmm. destruct (request_shutdown_all _) as [s1 e1]. cbn [fst] in Hmm. injection H as H _. rewrite <- H. clear H.
  intros a i Hi. rewrite Hmm, lookup_fmap in Hi. cbn [cm_map put_info set_map] in Hi.
  assert (Hx : forall j, (ci_actor j = None -> ci_timer j = 0 -> ci_active j = false) -> match ci_actor (ask_child j) with Some _ => ci_shut (ask_child j) <> SNone | None => ci_active (ask_child j) = false /\ ci_timer (ask_child j) = 0 end).
  { intros j Hj. unfold ask_child. destruct (ci_actor j) eqn:Ej; [destruct (ci_shut j) eqn:Esh; cbn; rewrite ?Ej, ?Esh; done|].
    destruct (ci_timer j =? 0) eqn:Et; cbn; rewrite Ej; [|done]. apply N.eqb_eq in Et. auto. }
  assert (Hn : forall b j, cm_map (f_cm s) !! b = Some j -> ci_actor j = None -> ci_timer j = 0 -> ci_active j = false).
  { intros b j Hj H1 H2. destruct (ci_active j) eqn:E; [|done]. exfalso. apply (Hl b). exists j. split_and!; try done. rewrite Hsq. apply not_elem_of_nil. }
  destruct (decide (a = 0)) as [->|Ha0].
  - rewrite lookup_insert in Hi. cbn in Hi. injection Hi as <-. apply Hx. cbn. by apply Hn with 0.
  - rewrite lookup_insert_ne in Hi by done. destruct (cm_map (f_cm s) !! a) as [j|] eqn:Hj; [|done]. cbn in Hi. injection Hi as <-. apply Hx. by apply Hn with a.
Qed.

Lemma vote_good p s ev : p <> PLeft -> good p s ev -> exists s' e, fstep s FVote = Ok (s', e) /\ good (f_phase s') s' (ev ++ e) /\ f_phase s' <> PLeft /\ nonew e /\
  (all_asked (f_cm s) -> all_asked (f_cm s')).
Proof.
  intros Hp Hg. destruct (step_fin hp policy sync s ev FVote (gd_f _ _ _ Hg) I) as (s' & e & H & Hf). exists s', e. split; [done|].
  destruct (calm_step s FVote s' e I ltac:(done) (good_cinv _ _ _ Hg) (gd_st _ _ _ Hg) H) as (H1 & H2 & H3 & H4).
  split; [|split; [|done]].
  - split; try done. by apply H3, Hg.
  - destruct (f_phase s) eqn:E; [by destruct (vote_phase s s' e E H)|..]; cbn [FamilyModel.fstep] in H; rewrite bool_decide_false in H by (by rewrite E); injection H as <- <-; rewrite E; [done|].
    by rewrite <- (gd_ph _ _ _ Hg), E in Hp.
Qed.
Lemma rest_vote s ev : good PWorking s ev -> resting s -> all_asked (f_cm s) -> exists s' e, fstep s FVote = Ok (s', e) /\ EVoteShutdown true ∈ e.
Proof.
  intros Hg Hre Ha. apply (SystemProofs.fam_votes hp policy sync s ev (gd_f _ _ _ Hg) (gd_st _ _ _ Hg) (gd_ph _ _ _ Hg)).
  - intros c Hc. by destruct (rested PWorking s ev ltac:(done) Hg Hre Ha c Hc).
  - intros a i Hi Hn. specialize (Ha a i Hi). rewrite Hn in Ha. by destruct Ha.
Qed.
Lemma rest_spawnq p s ev : p <> PLeft -> good p s ev -> resting s -> cm_spawnq (f_cm s) = [].
Proof.
  intros Hp Hg [(Hq & _ & Hb) _]. rewrite <- (r_spawnq _ _ _ (fi_rinv _ _ (gd_f _ _ _ Hg) Hb)), Hq. done.
Qed.

(** The end itself. *)
Definition last_steps : list fop := [FDeactivate true false; D0; FShutDown].
Lemma leaves s ev : good PAgreed s ev -> resting s -> all_asked (f_cm s) ->
  exists s' e, guarded fstep orderly s last_steps /\ run fstep s last_steps = Ok (s', e) /\ over s' (ev ++ e).
Proof.
  intros Hg Hre Ha. pose proof (rested PAgreed s ev ltac:(done) Hg Hre Ha) as Hall. destruct Hre as [(Hq & Hl & Hb) _].
  assert (Hord : orderly s (FDeactivate true false)). { cbn. rewrite Hq. apply not_elem_of_nil. }
  destruct (step_fin hp policy sync s ev _ (gd_f _ _ _ Hg) Hord) as (s1 & e1 & H1 & Hf1).
  destruct (calm_step s _ s1 e1 (I : internal (FDeactivate true false)) ltac:(done) (good_cinv _ _ _ Hg) (gd_st _ _ _ Hg) H1) as (Hn & Hst1 & _).
  assert (Hd : f_q s1 = [MBye 0] /\ cm_children (f_cm s1) = cm_children (f_cm s)).
  { cbn [FamilyModel.fstep] in H1. rewrite bool_decide_true in H1 by apply Hg. destruct (manage0 _ _) as [[t e]| |] eqn:E; [|done..]. cbn [rbind] in H1. injection H1 as <- <-.
    pose proof (deactivate_quiet hp policy sync _ _ _ _ _ E) as [Hq' _]. cbn in Hq'. rewrite Hq in Hq'. split; [cbn; by rewrite Hq'|].
    apply manage_cm in E. cbn -[deactivate] in E. rewrite (gd_st _ _ _ Hg), bool_decide_true in E by done. unfold deactivate in E. cbn [andb] in E.
    destruct (cm_map (f_cm s) !! 0) as [i0|] eqn:H0.
    - revert E. cbn. case_match; intros E; [|by injection E as <- _]. apply remove_eff in E as (i & c & k & abn & x1 & x2 & _ & _ & _ & _ & _ & Hk & _). by rewrite (kp_children _ _ Hk).
    - revert E. cbn. case_match; intros E; [|by injection E as <- _]. apply remove_eff in E as (i & c & k & abn & x1 & x2 & _ & _ & _ & _ & _ & Hk & _). by rewrite (kp_children _ _ Hk). }
  destruct Hd as [Hq1 Hch1].
  set (s2 := set_bye (set_q s1 []) (f_bye s1 ∪ {[0]})).
  assert (H2 : fstep s1 D0 = Ok (s2, [])).
  { unfold D0. cbn [FamilyModel.fstep]. rewrite Hq1. unfold deliver. cbn. done. }
  assert (H3 : exists s3, fstep s2 FShutDown = Ok (s3, []) /\ cm_state (f_cm s3) = AShutDown /\ f_bye s3 = f_bye s2 /\ cm_children (f_cm s3) = cm_children (f_cm s1)).
  { cbn [FamilyModel.fstep]. unfold FamilyModel.manage0, FamilyModel.manage. cbn. rewrite Hst1. cbn. eexists. by split_and!. }
  destruct H3 as (s3 & H3 & Hst3 & Hb3 & Hch3).
  exists s3, (e1 ++ []). split_and!.
  - unfold last_steps. cbn [guarded]. rewrite H1. split; [done|]. split; [done|]. rewrite H2. split; [done|]. by rewrite H3.
  - unfold last_steps. cbn [run]. rewrite H1. cbn [rbind]. rewrite H2. cbn [rbind]. rewrite H3. done.
  - split; [done|split].
    + rewrite Hb3. cbn. set_solver.
    + intros c Hc. rewrite app_nil_r in Hc. rewrite app_nil_r. apply elem_of_app in Hc as [Hc|Hc]; [|exfalso; by apply (proj1 (nonew_in _) Hn) in Hc].
      destruct (Hall c Hc) as [Hs Hr]. split; [|by apply removed_app; left]. unfold state_of in *. by rewrite Hch3, Hch1.
Qed.

Lemma ends s ev : good PWorking s ev -> exists ops s' e, Forall internal ops /\ guarded fstep orderly s ops /\ run fstep s ops = Ok (s', e) /\ over s' (ev ++ e) /\ EVoteShutdown true ∈ e.
Proof.
  intros Hg. destruct (quiesce PWorking ltac:(done) (S (wfam s)) s ev ltac:(lia) Hg) as (o1 & s1 & e1 & F1 & G1 & R1 & Hg1 & _ & _ & Hr1).
  destruct (vote_good PWorking s1 _ ltac:(done) Hg1) as (s2 & e2 & H2 & Hg2 & Hp2 & _ & _).
  pose proof (vote_asks s1 s2 e2 (gd_st _ _ _ Hg1) (gd_ph _ _ _ Hg1) (rest_spawnq PWorking _ _ ltac:(done) Hg1 Hr1) (gd_l _ _ _ Hg1) H2) as Ha2.
  destruct (quiesce (f_phase s2) Hp2 (S (wfam s2)) s2 _ ltac:(lia) Hg2) as (o3 & s3 & e3 & F3 & G3 & R3 & Hg3 & _ & Ha3 & Hr3). specialize (Ha3 Ha2).
  destruct (vote_good (f_phase s2) s3 _ Hp2 Hg3) as (s4 & e4 & H4 & Hg4 & Hp4 & _ & Ha4). specialize (Ha4 Ha3).
  assert (E4 : f_phase s4 = PAgreed).
  { destruct (f_phase s3) eqn:E; [|..].
    - pose proof (gd_ph _ _ _ Hg3) as Hp3. rewrite <- Hp3, E in Hg3. destruct (rest_vote s3 _ Hg3 Hr3 Ha3) as (s5 & e5 & H5 & He5). rewrite H4 in H5. injection H5 as <- <-.
      by apply (vote_phase s3 s4 e4 E H4).
    - cbn [FamilyModel.fstep] in H4. rewrite bool_decide_false in H4 by (by rewrite E). by injection H4 as <- <-.
    - by rewrite <- (gd_ph _ _ _ Hg3), E in Hp2. }
  rewrite E4 in Hg4. destruct (quiesce PAgreed ltac:(done) (S (wfam s4)) s4 _ ltac:(lia) Hg4) as (o5 & s5 & e5 & F5 & G5 & R5 & Hg5 & _ & Ha5 & Hr5). specialize (Ha5 Ha4).
  destruct (leaves s5 _ Hg5 Hr5 Ha5) as (s6 & e6 & G6 & R6 & Hov).
  assert (Hin : forall l, Forall of_children l -> Forall internal l). { intros l Hll. eapply Forall_impl; [exact Hll|]. intros o Ho. by apply children_internal. }
  exists (o1 ++ FVote :: o3 ++ FVote :: o5 ++ last_steps), s6, (e1 ++ e2 ++ e3 ++ e4 ++ e5 ++ e6).
  split_and!.
  - apply Forall_app. split; [by apply Hin|]. constructor; [done|]. apply Forall_app. split; [by apply Hin|]. constructor; [done|]. apply Forall_app. split; [by apply Hin|]. by repeat constructor.
  - eapply guarded_app; [done|exact R1|]. cbn [guarded]. split; [done|]. rewrite H2. eapply guarded_app; [done|exact R3|]. cbn [guarded]. split; [done|]. rewrite H4. by eapply guarded_app.
  - rewrite run_app, R1. cbn [rbind run]. rewrite H2. cbn [rbind]. rewrite run_app, R3. cbn [rbind run]. rewrite H4. cbn [rbind]. rewrite run_app, R5. cbn [rbind]. rewrite R6. cbn [rbind]. done.
  - by rewrite !(assoc_L (++)) in *.
  - destruct (f_phase s2) eqn:E2; [|..|by destruct Hp2].
    + assert (EVoteShutdown true ∈ e4); [|rewrite !elem_of_app; tauto]. by eapply agreed_vote; [apply Hg3|..].
    + assert (EVoteShutdown true ∈ e2); [|rewrite !elem_of_app; tauto]. by eapply agreed_vote; [apply Hg1|..].
Qed.
End main.
