(** Facts about reachable trees of supervisors (C56). *)
From stdpp Require Import base list gmap.
From Verif Require Import Base ChildMgrModel ChildMgrSpec ChildMgrProofs ChildMgrTrace ChildMgrFacts FamilyModel FamilySpec FamilySteps FamilyFold FamilyInv FamilyChild FamilyProofs FamilyInit TreeModel TreeSpec TreeSteps TreeInv TreeNode TreeProofs.
Open Scope N_scope.

Section facts.
Context (pol : list N -> spolicy) (sync : list N -> bool).
Notation nstep := (nstep pol sync).
Notation local := (local pol sync).
Notation tstep := (tstep pol sync).
Notation nodeok := (nodeok pol sync).
Notation linked := (linked pol sync).
Notation good := (tinv pol sync (fun _ => False)).
Definition treach (ops : list top) (t : tstate) (ev : list cevent) : Prop := guarded tstep tidy tinit ops /\ run tstep tinit ops = Ok (t, ev).
Lemma reach_good ops t ev : treach ops t ev -> good t.
Proof. intros [Hg H]. by eapply tree_good. Qed.

(** ** Both sides *)
Lemma tree_mirror ops t ev c n m : treach ops t ev -> t !! (c :: n) = Some m ->
  exists nd, t !! n = Some nd /\ ECreated c ∈ n_ev nd /\ state_of (n_fam nd) c = Some (sup_state m).
Proof.
  intros H Hm. apply reach_good in H as Ht. destruct (te_par _ _ _ _ Ht c n m Hm) as (nd & Hn & Hc). exists nd. split; [done|]. split; [done|].
  apply (good_link _ _ _ _ _ _ _ Ht Hm Hn).
Qed.

(** ** The end *)
Lemma left_all n nd c : nodeok n nd -> f_phase (n_fam nd) <> PWorking -> ECreated c ∈ n_ev nd -> state_of (n_fam nd) c = Some AShutDown.
Proof.
  intros Hn Hp Hc. pose proof (no_x _ _ _ _ Hn) as Hx. pose proof (no_fin _ _ _ _ Hn) as Hf.
  assert (Hc0 : c <> 0) by apply (h_next _ _ (ai_h _ _ _ (fi_all _ _ Hf)) c Hc).
  destruct (x_created _ _ _ Hx c Hc) as [ch Hch]. destruct (x_left _ _ _ Hx Hp) as [_ Hl]. specialize (Hl c (ch_state ch) Hc0). unfold state_of in *. rewrite Hch in *. cbn in *. by rewrite Hl.
Qed.
Lemma down_left n m : good n -> forall x, n !! x = Some m -> x <> [] -> sup_state m = AShutDown -> f_phase (n_fam m) = PLeft.
Proof.
  intros Ht [|c p] Hm Hx Hs; [done|]. destruct (te_par _ _ _ _ Ht c p m Hm) as (nd & Hn & Hc). by apply (good_link _ _ _ _ _ _ _ Ht Hm Hn).
Qed.
Lemma subtree t n nd : good t -> t !! n = Some nd -> f_phase (n_fam nd) <> PWorking -> forall l m, t !! (l ++ n) = Some m ->
  f_phase (n_fam m) <> PWorking /\ (l <> [] -> sup_state m = AShutDown).
Proof.
  intros Ht Hn Hp l. induction l as [|c l IH]; intros m Hm; cbn in Hm.
  - rewrite Hn in Hm. by injection Hm as <-.
  - destruct (te_par _ _ _ _ Ht c (l ++ n) m Hm) as (pd & Hpd & Hc). destruct (IH pd Hpd) as [Hpp _].
    pose proof (left_all _ _ c (te_node _ _ _ _ Ht _ _ Hpd) Hpp Hc) as Hst. pose proof (good_link _ _ _ _ _ _ _ Ht Hm Hpd) as [L1 _ L3 _].
    rewrite Hst in L1. injection L1 as L1. split; [|done]. by rewrite L3.
Qed.
Lemma tree_order ops t ev n nd l m : treach ops t ev -> t !! n = Some nd -> EVoteShutdown true ∈ n_ev nd -> t !! (l ++ n) = Some m ->
  (forall c, ECreated c ∈ n_ev m -> state_of (n_fam m) c = Some AShutDown) /\ (l <> [] -> sup_state m = AShutDown).
Proof.
  intros H Hn Hv Hm. apply reach_good in H as Ht. pose proof (te_node _ _ _ _ Ht n nd Hn) as Hok.
  destruct (subtree t n nd Ht Hn (x_vote _ _ _ (no_x _ _ _ _ Hok) Hv) l m Hm) as [Hp Hl]. split; [|done]. intros c. apply (left_all (l ++ n)); [|done]. by eapply te_node.
Qed.
Lemma tree_subtree ops t ev n nd l m : treach ops t ev -> t !! n = Some nd -> n <> [] -> sup_state nd = AShutDown -> t !! (l ++ n) = Some m ->
  sup_state m = AShutDown /\ forall c, ECreated c ∈ n_ev m -> state_of (n_fam m) c = Some AShutDown.
Proof.
  intros H Hn Hne Hs Hm. apply reach_good in H as Ht. assert (Hp : f_phase (n_fam nd) <> PWorking) by (by rewrite (down_left _ _ Ht _ Hn Hne Hs)).
  destruct (subtree t n nd Ht Hn Hp l m Hm) as [Hpm Hl]. split.
  - destruct l; [cbn in Hm; congruence|by apply Hl].
  - intros c. apply (left_all (l ++ n)); [|done]. by eapply te_node.
Qed.

(** ** What is asked *)
Lemma shut_states st : 5 <= rank st -> st = AShuttingDown \/ st = AShutDown.
Proof. destruct st; cbn; auto; lia. Qed.
Lemma tree_asked ops t ev c n nd m : treach ops t ev -> t !! n = Some nd -> t !! (c :: n) = Some m -> settled (n_fam nd) ->
  EShutReq c ∈ n_ev nd <-> (sup_state m = AShuttingDown \/ sup_state m = AShutDown).
Proof.
  intros H Hn Hm Hs. apply reach_good in H as Ht. destruct (te_par _ _ _ _ Ht c n m Hm) as (nd' & Hn' & Hc). rewrite Hn in Hn'. injection Hn' as <-.
  destruct (te_node _ _ _ _ Ht n nd Hn) as [G R _]. rewrite (fam_asked _ _ _ _ _ _ c G R Hs Hc). unfold shutting.
  rewrite (lk_state _ _ _ _ _ _ (good_link _ _ _ _ _ _ _ Ht Hm Hn)). split; [by intros (st & [= <-] & ?)|intros ?; by eexists].
Qed.
Lemma tree_self ops t ev c n nd m : treach ops t ev -> t !! n = Some nd -> t !! (c :: n) = Some m -> settled (n_fam nd) -> ESelfShutdown ∈ n_ev m ->
  EShutReq c ∈ n_ev nd.
Proof.
  intros H Hn Hm Hs He. apply reach_good in H as Ht. destruct (te_node _ _ _ _ Ht n nd Hn) as [G R _].
  destruct (lk_plea _ _ _ _ _ _ (good_link _ _ _ _ _ _ _ Ht Hm Hn) He) as (o1 & o2 & s1 & e1 & st & Ho & H1 & Hc & Hst & Hr). rewrite Ho in G, R.
  eapply fam_trigger; [exact G|exact H1|exact Hc|exact Hst| | |exact R|exact Hs]; intros ->; cbn in Hr; lia.
Qed.
Lemma tree_escalates ops t ev c n nd m : treach ops t ev -> t !! n = Some nd -> t !! (c :: n) = Some m -> settled (n_fam nd) -> settled (n_fam m) ->
  ESelfShutdown ∈ n_ev m \/ EEscalate ∈ n_ev m -> EShutReq c ∈ n_ev nd /\ (sup_state m = AShuttingDown \/ sup_state m = AShutDown).
Proof.
  intros H Hn Hm Hs Hsm He. pose proof (tree_asked _ _ _ _ _ _ _ H Hn Hm Hs) as Ha.
  assert (Hx : ESelfShutdown ∈ n_ev m \/ 5 <= rank (sup_state m)).
  { destruct He as [He|He]; [by left|]. apply reach_good in H as Ht. pose proof (te_node _ _ _ _ Ht _ m Hm) as Hok. pose proof Hsm as (_ & _ & Hb).
    destruct (x_own _ _ _ (no_x _ _ _ _ Hok) eq_refl Hb) as [_ Hp]. destruct (Hp He) as [Hi|[?|?]]; [by apply (settled_infl _ _ Hsm) in Hi|by left|by right]. }
  destruct Hx as [Hx|Hx]; [split; [by eapply tree_self|]; apply Ha; by eapply tree_self|]. apply shut_states in Hx. split; [by apply Ha|done].
Qed.

(** ** A supervisor which shuts down asks its children *)
Definition votes_ok (ev : list cevent) : Prop := forall ev1 b ev2 c, ev = ev1 ++ EVoteShutdown b :: ev2 -> ECreated c ∈ ev1 -> removed c ev1 \/ EShutReq c ∈ ev1.
Lemma votes_more ev e : votes_ok ev -> (forall e1 b e2 c, e = e1 ++ EVoteShutdown b :: e2 -> ECreated c ∈ ev ++ e1 -> removed c (ev ++ e1) \/ EShutReq c ∈ ev ++ e1) -> votes_ok (ev ++ e).
Proof.
  intros Hv He ev1 b ev2 c Heq Hc. apply app_eq_inv in Heq as [(k & H1 & H2)|(k & H1 & H2)].
  - destruct k as [|x k]; cbn in H2.
    + rewrite app_nil_r in H1. subst ev1. specialize (He [] b ev2 c). rewrite app_nil_r in He. by apply He.
    + injection H2 as <- H2. by apply (Hv ev1 b k c).
  - subst ev1. by apply (He k b ev2 c).
Qed.
Lemma vote_step n s ev o s' e : finv s ev -> nstep n s o = Ok (s', e) -> votes_ok ev -> votes_ok (ev ++ e).
Proof.
  intros Hf H Hv. apply votes_more; [done|]. intros e1 b e2 c He Hc. subst e.
  assert (Hin : EVoteShutdown b ∈ e1 ++ EVoteShutdown b :: e2) by (apply elem_of_app; right; left).
  pose proof H as Hsh. apply step_shape in Hsh as [fo ea co s1 s2 l P Hm Hs Hfi Hl|He So]; [|by destruct e1].
  destruct (manage_eff (hp n) (pol n) (sync n) s ev o _ Hf fo ea co s1 s2 P Hm Hfi) as (Ha & Hst & E).
  destruct (vote_shutdown _ _ _ _ _ _ _ _ Hst Hin) as (Hsd & i & Hi & Hs2 & He & _).
  assert (Hlast : e1 = (request_shutdown_all (put_info (f_cm s1) 0 (i_shut i SConfirmed))).2 /\ e2 = []).
  { set (all := (request_shutdown_all _).2) in *. assert (Hno : EVoteShutdown b ∉ all).
    { intros Hx. unfold all in Hx. by apply ask_events_in in Hx as [(? & ? & ? & ? & _)|?]. }
    clearbody all. clear -He Hno. revert all He Hno. induction e1 as [|x e1 IH]; intros [|y all] He Hno; cbn in He.
    - by injection He as ->.
    - exfalso. injection He as <- _. apply Hno. left.
    - by destruct e1.
    - injection He as <- H2. destruct (IH all H2) as [-> ->]; [|done]. intros Hx. apply Hno. by right. }
  destruct Hlast as [-> ->]. set (all := (request_shutdown_all (put_info (f_cm s1) 0 (i_shut i SConfirmed))).2) in *.
  assert (Hc' : ECreated c ∈ ev). { apply elem_of_app in Hc as [Hc|Hc]; [done|]. unfold all in Hc. by apply ask_events_in in Hc as [(? & ? & ? & ? & _)|?]. }
  destruct (removed_dec c ev) as [|Hr]; [left; apply removed_app; by left|right].
  destruct (h_live _ _ (ai_h _ _ _ Ha) c Hc') as [(j & Hj & Haj)|?]; [|done].
  assert (Hc0 : c <> 0) by apply (h_next _ _ (ai_h _ _ _ Ha) c Hc').
  destruct (all_put_actor _ i _ _ Hj Hc0 Haj) as (j' & Hj' & Ha' & Hs').
  assert (Hall : allinv False (f_cm s2) (ev ++ all ++ [EVoteShutdown b])).
  { eapply allinv_moves; [|exact Ha]. eapply (step_moves (hp n) (pol n) (sync n) False); [apply Ha|done|exact Hst]. }
  rewrite <-Hs2 in Hj'. pose proof (h_asked _ _ (ai_h _ _ _ Hall) _ _ Hj' Hc0 ltac:(by rewrite Ha') Hs') as Hx. rewrite app_assoc in Hx.
  apply elem_of_app in Hx as [Hx|Hx]; [done|]. by apply elem_of_list_singleton in Hx.
Qed.
Lemma node_votes n ops s ev : guarded (nstep n) orderly (finit (hp n)) ops -> run (nstep n) (finit (hp n)) ops = Ok (s, ev) -> votes_ok ev.
Proof.
  intros Hg H.
  refine (proj2 (run_inv_ev (nstep n) orderly (fun s ev => finv s ev /\ votes_ok ev) _ ops (finit (hp n)) [] s ev _ Hg H)).
  - intros s0 ev0 o s' e [Hf Hv] Ho Hs. split; [|by eapply vote_step]. destruct (step_fin (hp n) (pol n) (sync n) s0 ev0 o Hf Ho) as (s2 & e2 & H2 & Hf2).
    unfold TreeModel.nstep in Hs. congruence.
  - split; [apply finv_init|]. intros ev1 b ev2 d Hx; by destruct ev1.
Qed.
Lemma tree_down ops t ev n nd ev1 b ev2 c : treach ops t ev -> t !! n = Some nd -> settled (n_fam nd) -> n_ev nd = ev1 ++ EVoteShutdown b :: ev2 -> ECreated c ∈ ev1 ->
  shutting (n_fam nd) c /\ forall m, t !! (c :: n) = Some m -> sup_state m = AShuttingDown \/ sup_state m = AShutDown.
Proof.
  intros H Hn Hs He Hc. apply reach_good in H as Ht. destruct (te_node _ _ _ _ Ht n nd Hn) as [G R _].
  assert (Hcn : ECreated c ∈ n_ev nd) by (rewrite He; apply elem_of_app; by left).
  assert (Hsh : shutting (n_fam nd) c).
  { destruct (node_votes n _ _ _ G R ev1 b ev2 c He Hc) as [Hr|Hr].
    - exists AShutDown. split; [|by right]. apply (fam_removed _ _ _ _ _ _ c G R Hs Hcn). rewrite He. apply removed_app. by left.
    - apply (fam_asked _ _ _ _ _ _ c G R Hs Hcn). rewrite He. apply elem_of_app. by left. }
  split; [done|]. intros m Hm. destruct Hsh as (st & Hst & Hx). rewrite (lk_state _ _ _ _ _ _ (good_link _ _ _ _ _ _ _ Ht Hm Hn)) in Hst. by injection Hst as ->.
Qed.

(** ** Initialization *)
Lemma node_inits n s o s' e : nstep n s o = Ok (s', e) -> cm_state (f_cm s) <> AInitialized -> cm_state (f_cm s') = AInitialized ->
  o = FInitialized /\ cm_children (f_cm s') = cm_children (f_cm s).
Proof.
  intros H Hs Hs'. destruct (special o) eqn:Hsp.
  - unfold TreeModel.nstep in H. destruct o; try done; cbn -[FamilyModel.manage] in H; unfold manage0 in H.
    + split; [done|]. destruct (_ && _) eqn:Hc; [|by injection H as <- _]. destruct (FamilyModel.manage _ _ _ _ _ _ _) as [[s1 e1]| |] eqn:Hm; try done. cbn in H.
      destruct (manage_keeps _ _ _ _ _ _ _ _ _ Hm) as (_ & _ & _ & _ & Hst). cbn in Hst.
      assert (Hk : cm_children (f_cm s1) = cm_children (f_cm s)) by (destruct (sup_moves _ _ _); injection Hst as <- _; done).
      destruct (hp n); injection H as <- _; done.
    + exfalso. destruct (manage_keeps _ _ _ _ _ _ _ _ _ H) as (_ & _ & _ & _ & Hst). cbn in Hst. case_bool_decide; [done|]. injection Hst as Hx _. congruence.
    + exfalso. destruct (hp n); [|injection H as <- _; done]. destruct (manage_keeps _ _ _ _ _ _ _ _ _ H) as (_ & _ & _ & _ & Hst). cbn in Hst. injection Hst as Hx _. rewrite <-Hx in Hs'. by destruct (bool_decide _).
    + exfalso. destruct (hp n); [|injection H as <- _; done]. destruct (manage_keeps _ _ _ _ _ _ _ _ _ H) as (_ & _ & _ & _ & Hst). cbn in Hst. destruct (sup_moves _ _ _); injection Hst as Hx _; rewrite <-Hx in Hs'; done.
    + exfalso. destruct (manage_keeps _ _ _ _ _ _ _ _ _ H) as (_ & _ & _ & _ & Hst). cbn in Hst. destruct (sup_moves _ _ _); injection Hst as Hx _; rewrite <-Hx in Hs'; done.
  - exfalso. pose proof H as Hsh. apply step_shape in Hsh as [fo ea co s1 s2 l P Hm Hss Hfi Hl|He So]; [|destruct (so_cm _ _ So) as [M HM]; rewrite HM in Hs'; done].
  subst s'. cbn in Hs'. destruct (manage_keeps _ _ _ _ _ _ _ _ _ Hm) as (_ & _ & _ & _ & Hst).
  assert (Hs1 : cm_state (f_cm s1) = cm_state (f_cm s)) by (by destruct (pr_cm _ _ _ P) as [->|[y ->]]).
  assert (Hown : (hp n = true \/ match co with OTrigger _ => False | _ => True end) -> match co with OChild _ _ | OState _ | OHandleStart | OInitRequest => False | _ => True end -> False).
  { intros Hh Hc. destruct (step_own (hp n) (pol n) (sync n) _ _ _ _ Hh Hc Hst) as (H1 & _). congruence. }
  destruct co as [|cfg|a ok|a|a failed|a|a subs ask|a ask| | | |id|d| | |st|x ch|m ask]; try (apply Hown; [by right|done]); try (cbn in Hfi; congruence).
    + cbn -[request_shutdown_all on_shutdown_trigger] in Hst. unfold on_shutdown_trigger, request_shutdown in Hst. destruct (cm_map (f_cm s1) !! a) as [i|]; [|done].
      destruct (ci_shut i); [|injection Hst as Hx _; congruence..]. destruct (ci_actor i) as [x|]; [|done]. destruct (cancel_own (f_cm s1) x) as [Hc1 _].
      destruct (x =? 0); [|injection Hst as Hx _; rewrite <-Hx in Hs'; cbn in Hs'; congruence]. destruct (hp n); [injection Hst as Hx _; rewrite <-Hx in Hs'; cbn in Hs'; congruence|].
      set (z := set_state _ _) in Hst. destruct (all_own z) as (A1 & _). destruct (request_shutdown_all z) as [s3 e3]. cbn in A1. destruct (bool_decide _); injection Hst as Hx _; rewrite <-Hx in Hs'; cbn in Hs'; congruence.
    + cbn in Hst. injection Hst as Hx _. rewrite <-Hx in Hs'. destruct (bool_decide _); cbn in Hs'; congruence.
Qed.
Lemma local_inits t n o t' e x m' : local t n o = Ok (t', e) -> t' !! x = Some m' -> sup_state m' = AInitialized ->
  exists m, t !! x = Some m /\ (sup_state m = AInitialized \/ (x = n /\ o = FInitialized)).
Proof.
  intros H Hm Hs. unfold TreeModel.local in H. destruct (t !! n) as [nd|] eqn:Hn; [|injection H as <- _; eauto].
  destruct (nstep n (n_fam nd) o) as [[s e1]| |] eqn:Hst; try done. cbn in H. injection H as <- <-. destruct (decide (n = x)) as [<-|Hne].
  - rewrite t_eq in Hm. injection Hm as <-. exists nd. split; [done|]. destruct (decide (sup_state nd = AInitialized)) as [|Hni]; [by left|right].
    destruct (node_inits n _ _ _ _ Hst Hni Hs) as [-> _]. done.
  - rewrite t_ne in Hm by done. eauto.
Qed.
Lemma upcalls_inits n l : forall t t' x m', upcalls pol sync t n l = Ok t' -> t' !! x = Some m' -> sup_state m' = AInitialized ->
  exists m, t !! x = Some m /\ sup_state m = AInitialized.
Proof.
  induction l as [|y l IH]; intros t t' x m' H Hm Hs; cbn in H; [injection H as <-; eauto|].
  destruct (upcall pol sync t n y) as [[t1 e1]| |] eqn:Hu; try done. cbn in H. destruct (IH t1 t' x m' H Hm Hs) as (m1 & Hm1 & Hs1).
  unfold upcall in Hu. destruct n as [|c p]; [injection Hu as <- _; eauto|].
  assert (Hl : forall o, o <> FInitialized -> local t p o = Ok (t1, e1) -> exists m, t !! x = Some m /\ sup_state m = AInitialized).
  { intros o Ho Hlo. destruct (local_inits _ _ _ _ _ _ _ Hlo Hm1 Hs1) as (m & Hmm & [?|[_ ?]]); eauto. done. }
  destruct y; try (injection Hu as <- _; by eauto); (eapply Hl; [|exact Hu]; done).
Qed.
Lemma step_inits t o t' e x m' : tstep t o = Ok (t', e) -> t' !! x = Some m' -> sup_state m' = AInitialized ->
  exists m, t !! x = Some m /\ (sup_state m = AInitialized \/ handle_init (f_cm (n_fam m)) = true).
Proof.
  intros H Hm Hs. destruct o as [n o|n c|n c|n c|n c]; cbn -[TreeModel.local upcalls downcall both] in H.
  - destruct (t !! n) as [nd|] eqn:Hn; [|injection H as <- _; eauto]. destruct (_ || _) eqn:Hsh; [injection H as <- _; eauto|].
    destruct (local t n o) as [[t1 e1]| |] eqn:H1; try done. cbn [rbind] in H.
    destruct (match downcall (n_fam nd) o with Some (c, oc) => local t1 (c :: n) oc | None => Ok (t1, []) end) as [[t2 e2]| |] eqn:H2; try done. cbn [rbind] in H.
    destruct (upcalls pol sync t2 n e1) as [t3| |] eqn:H3; try done. cbn in H. injection H as <- <-.
    destruct (upcalls_inits _ _ _ _ _ _ H3 Hm Hs) as (m2 & Hm2 & Hs2).
    assert (Hx : exists m1, t1 !! x = Some m1 /\ sup_state m1 = AInitialized).
    { destruct (downcall (n_fam nd) o) as [[c oc]|] eqn:Hd; [|injection H2 as <- _; eauto].
      destruct (local_inits _ _ _ _ _ _ _ H2 Hm2 Hs2) as (m1 & Hm1 & [?|[_ ->]]); [eauto|]. exfalso.
      assert (Hh : forall s d x, handled s d x <> Some (c, FInitialized)) by (intros s0 d y; unfold handled; destruct (decide _); [done|]; by destruct y).
      clear Hsh. unfold downcall in Hd. destruct o; try done; [destruct (f_q (n_fam nd)) as [|[] ?]; try done; destruct (_ || _); try done|destruct (downl (n_fam nd) c0); [done|]]; eapply Hh; exact Hd. }
    destruct Hx as (m1 & Hm1 & Hs1). destruct (local_inits _ _ _ _ _ _ _ H1 Hm1 Hs1) as (m & Hmm & [?|[-> ->]]); [eauto|]. exists m. split; [done|right].
    rewrite Hn in Hmm. injection Hmm as <-. apply orb_false_elim in Hsh as [_ Hr]. apply negb_false_iff in Hr. done.
  - destruct (t !! n) as [nd|] eqn:Hn; [|injection H as <- _; eauto]. destruct (t !! (c :: n)) eqn:Hc; [injection H as <- _; eauto|].
    destruct (child_ready _ _ _); [|injection H as <- _; eauto]. destruct (_ || _); [injection H as <- _; eauto|]. injection H as <- _.
    destruct (decide (c :: n = x)) as [<-|Hne]; [rewrite t_eq in Hm; injection Hm as <-; done|rewrite t_ne in Hm by done; eauto].
  - destruct (t !! (c :: n)) as [m|] eqn:Hc; [|injection H as <- _; eauto]. destruct (handle_init _) eqn:Hi; [|injection H as <- _; eauto].
    unfold both in H. destruct (local t (c :: n) _) as [[t1 e1]| |] eqn:H1; try done. cbn [rbind] in H.
    destruct (local_inits _ _ _ _ _ _ _ H Hm Hs) as (m1 & Hm1 & [Hs1|[_ ?]]); [|done]. destruct (local_inits _ _ _ _ _ _ _ H1 Hm1 Hs1) as (m2 & Hm2 & [?|[-> _]]); [eauto|].
    exists m. split; [done|by right].
  - destruct (t !! (c :: n)) as [m|] eqn:Hc; [|injection H as <- _; eauto]. unfold both in H. destruct (local t (c :: n) _) as [[t1 e1]| |] eqn:H1; try done. cbn [rbind] in H.
    destruct (local_inits _ _ _ _ _ _ _ H Hm Hs) as (m1 & Hm1 & [Hs1|[_ ?]]); [|done]. destruct (local_inits _ _ _ _ _ _ _ H1 Hm1 Hs1) as (m2 & Hm2 & [?|[_ ?]]); [eauto|done].
  - destruct (t !! n) as [nd|] eqn:Hn; [|injection H as <- _; eauto]. destruct (t !! (c :: n)) as [m|] eqn:Hc; [|injection H as <- _; eauto]. destruct (decide _); [|injection H as <- _; eauto].
    unfold both in H. destruct (local t (c :: n) _) as [[t1 e1]| |] eqn:H1; try done. cbn [rbind] in H.
    destruct (local_inits _ _ _ _ _ _ _ H Hm Hs) as (m1 & Hm1 & [Hs1|[_ ?]]); [|done]. destruct (local_inits _ _ _ _ _ _ _ H1 Hm1 Hs1) as (m2 & Hm2 & [?|[_ ?]]); [eauto|done].
Qed.
Lemma tree_init ops t ev o t' e x m m' c : treach ops t ev -> tstep t o = Ok (t', e) -> t !! x = Some m -> t' !! x = Some m' ->
  sup_state m <> AInitialized -> sup_state m' = AInitialized -> ECreated c ∈ n_ev m ->
  (exists st, state_of (n_fam m) c = Some st /\ 3 <= rank st) /\ forall k, t !! (c :: x) = Some k -> 3 <= rank (sup_state k).
Proof.
  intros H Hst Hm Hm' Hs Hs' Hc. apply reach_good in H as Ht. destruct (step_inits _ _ _ _ _ _ Hst Hm' Hs') as (m1 & Hm1 & Hi). rewrite Hm in Hm1. injection Hm1 as <-.
  destruct Hi as [?|Hi]; [done|]. pose proof (te_node _ _ _ _ Ht x m Hm) as Hok. pose proof (no_fin _ _ _ _ Hok) as Hf. pose proof (no_x _ _ _ _ Hok) as Hx.
  assert (Hc0 : c <> 0) by apply (h_next _ _ (ai_h _ _ _ (fi_all _ _ Hf)) c Hc).
  assert (Hu : up3 (n_fam m) c).
  { destruct (h_live _ _ (ai_h _ _ _ (fi_all _ _ Hf)) c Hc) as [(j & Hj & Ha)|Hr].
    - destruct (ci_initialized j) eqn:Hin; [apply (x_ok _ _ _ Hx); [done|]; right; eapply (h_init _ _ (ai_h _ _ _ (fi_all _ _ Hf))); eauto|].
      assert (Hno : initializing (f_cm (n_fam m)) c j = false).
      { destruct (initializing (f_cm (n_fam m)) c j) eqn:E; [|done]. unfold handle_init in Hi. apply negb_true_iff in Hi. assert (has_initializing (f_cm (n_fam m)) = true); [|congruence].
        unfold has_initializing. apply existsb_exists. exists (c, j). split; [by apply elem_of_list_In, elem_of_map_to_list|done]. }
      unfold initializing in Hno. rewrite Ha, Hin in Hno. destruct (N.eqb_spec c 0); [done|]. cbn in Hno.
      destruct (cm_children (f_cm (n_fam m)) !! c) as [ch|] eqn:Hch; [|done]. exists (ch_state ch). unfold state_of. rewrite Hch. split; [done|]. rewrite andb_true_r in Hno. apply N.leb_gt in Hno. lia.
    - exists AShutDown. split; [|done]. destruct (decide (0 ∈ f_bye (n_fam m))) as [Hb|Hb].
      + apply (left_all x); [done| |done]. by rewrite (fi_bye _ _ Hf Hb).
      + destruct (x_created _ _ _ Hx c Hc) as [ch Hch]. pose proof (r_child _ _ _ (fi_rinv _ _ Hf Hb) c ch Hc0 Hch) as P. unfold state_of. rewrite Hch. cbn. by destruct (p_rem _ _ _ _ _ P Hr) as [-> _]. }
  split; [done|]. intros k Hk. destruct Hu as (st & Hu & Hr). rewrite (lk_state _ _ _ _ _ _ (good_link _ _ _ _ _ _ _ Ht Hk Hm)) in Hu. by injection Hu as ->.
Qed.
End facts.
