(** Theorems about a whole system. *)
From stdpp Require Import base list gmap.
From Verif Require Import Base Prog StateModel ChildMgrModel ChildMgrSpec ChildMgrProofs ChildMgrTrace ChildMgrFacts FamilyModel FamilySpec FamilySteps FamilyFold FamilyInv FamilyProofs TreeModel TreeFacts
  ActorModel ActorSpec ActorSafeSpec ActorReach NetModel NetSpec NetSettle NetInv NetRun NetProofs SystemModel SystemSpec SystemSteps SystemFam SystemInv.
Open Scope N_scope.

Lemma filter_length {A} (f : A -> bool) l l' : l ≡ₚ l' -> length (List.filter f l) = length (List.filter f l').
Proof. induction 1 as [|x l l' _ IH|x y l|]; cbn; [done| | |congruence]; [destruct (f x); cbn; congruence|by destruct (f x), (f y)]. Qed.
Lemma only_one {A} (P : A -> bool) (k : N) (x : A) (m : gmap N A) : m !! k = Some x -> (forall a j, m !! a = Some j -> P j = true <-> a = k) ->
  length (List.filter (fun '(_, i) => P i) (map_to_list m)) = 1%nat.
Proof.
  intros Hk HP. rewrite <- (insert_delete m k x Hk).
  assert (Hx : P x = true) by (by apply (HP k x Hk)).
  rewrite (filter_length _ _ _ (map_to_list_insert (delete k m) k x (lookup_delete m k))). cbn. rewrite Hx. cbn. f_equal.
  assert (Hn : forall p, p ∈ map_to_list (delete k m) -> P p.2 = false).
  { intros [a j] Hp. apply elem_of_map_to_list in Hp. apply lookup_delete_Some in Hp as [Hne Hp]. cbn. destruct (P j) eqn:E; [|done]. apply (HP a j Hp) in E. done. }
  induction (map_to_list (delete k m)) as [|[a j] l IH]; [done|]. pose proof (Hn (a, j) ltac:(left)) as E. cbn in E |- *. rewrite E. apply IH. intros p Hp. apply Hn. by right.
Qed.
(** A supervisor which ends and has no children left agrees to end, if it waits for no spawner. *)
Lemma fam_votes hp policy sync f ev : finv f ev -> cm_state (f_cm f) = AShuttingDown -> f_phase f = PWorking -> (forall c, ECreated c ∈ ev -> removed c ev) ->
  (forall a i, cm_map (f_cm f) !! a = Some i -> ci_actor i = None -> ci_active i = false) ->
  exists f' e, fstep hp policy sync f FVote = Ok (f', e) /\ EVoteShutdown true ∈ e.
Proof.
  intros Hfi Hst Hph Hrem Hsp. pose proof (fi_all _ _ Hfi) as Ha.
  assert (Hb : 0 ∉ f_bye f). { intros Hb. apply (fi_bye _ _ Hfi) in Hb. congruence. }
  destruct (step_fin hp policy sync _ _ FVote Hfi I) as (f' & e & Hv & _). exists f', e. split; [done|].
  unfold FamilyModel.fstep in Hv. rewrite bool_decide_true in Hv by done. unfold FamilyModel.manage0, FamilyModel.manage in Hv. cbn -[ChildMgrModel.handle_shutdown] in Hv. rewrite bool_decide_true in Hv by done.
  unfold ChildMgrModel.handle_shutdown in Hv. destruct (entry0 _ _ Ha (fi_rinv _ _ Hfi Hb) ltac:(by rewrite Hph)) as (i & Hi & _). rewrite Hi in Hv.
  pose proof (ask_all_map (put_info (f_cm f) 0 (i_shut i SConfirmed))) as Hmm. destruct (request_shutdown_all _) as [s1 e1] eqn:Hq. cbn [fst] in Hmm. cbn [rbind] in Hv. injection Hv as _ <-.
  apply elem_of_app. right. apply elem_of_list_singleton. f_equal. symmetry. apply Nat.eqb_eq.
  assert (Ho : forall a j, cm_map s1 !! a = Some j -> is_alive (cm_state s1) j = true <-> a = 0).
  { intros a j Hj. rewrite Hmm, lookup_fmap in Hj. cbn [cm_map put_info set_map] in Hj. destruct (decide (a = 0)) as [->|Ha0].
    - rewrite lookup_insert in Hj. cbn in Hj. injection Hj as <-. destruct (ChildMgrProofs.v_self _ (ai_c _ _ _ Ha) _ Hi) as [Hs0 _]. split; [done|]. intros _.
      unfold is_alive. rewrite (proj1 (proj2 (proj2 (ask_child_fields _)))). cbn. by rewrite Hs0, bool_decide_true.
    - rewrite lookup_insert_ne in Hj by done. destruct (cm_map (f_cm f) !! a) as [j0|] eqn:Hj0; [|done]. cbn in Hj. injection Hj as <-. split; [|done]. intros Hal. exfalso.
      assert (Hn : ci_actor j0 = None).
      { destruct (ci_actor j0) as [x|] eqn:Ex; [|done]. exfalso. pose proof (h_created _ _ (ai_h _ _ _ Ha) a j0 Hj0 Ha0 ltac:(by rewrite Ex)) as Hcr.
        destruct (h_removed _ _ (ai_h _ _ _ Ha) a (Hrem a Hcr)) as [_ Hx]. specialize (Hx j0 Hj0). congruence. }
      pose proof (Hsp a j0 Hj0 Hn) as Hac. unfold is_alive, ask_child in Hal. rewrite Hn in Hal. destruct (ci_timer j0 =? 0) eqn:Et; cbn in Hal; rewrite ?Hn, ?Hac, ?Et in Hal; done. }
  unfold active_actors. assert (H0 : exists j, cm_map s1 !! 0 = Some j). { rewrite Hmm, lookup_fmap. cbn. rewrite lookup_insert. by eexists. } destruct H0 as [j0 Hj0].
  rewrite (only_one _ 0 j0 (cm_map s1) Hj0 Ho). done.
Qed.
Section proofs.
Context (hp : bool) (policy : spolicy) (sync : bool).
Context (cfg : N -> plug -> list uact) (ra : N) (unl : N -> bool) (HC : forall n, prudent_cfg ra (cfg n)).
Notation fstep := (fstep hp policy sync).
Notation nstep := (nstep cfg ra unl).
Notation ystep := (ystep hp policy sync cfg ra unl).
Notation yrule := (yrule hp policy sync cfg ra unl).
Notation yinv := (yinv hp policy sync cfg ra unl).

Lemma sys_safe ops : guarded ystep yrule (yinit hp) ops -> exists y ev, run ystep (yinit hp) ops = Ok (y, ev) /\ yinv y ev.
Proof. intros Hg. apply (run_safe_ev ystep yrule yinv (ystep_inv hp policy sync cfg ra unl HC) ops (yinit hp) [] (yinv_init hp policy sync cfg ra unl) Hg). Qed.
Lemma sys_reach ops y ev : guarded ystep yrule (yinit hp) ops -> run ystep (yinit hp) ops = Ok (y, ev) -> yinv y ev.
Proof. intros Hg H. destruct (sys_safe ops Hg) as (y1 & e1 & H1 & Hi). rewrite H in H1. by inversion H1; subst. Qed.

Section reached.
Context (y : sys) (ev : list yev) (HI : yinv y ev).
Lemma sys_net : winv ra (y_w y).
Proof. destruct (yi_w _ _ _ _ _ _ _ _ HI) as (nops & Hg & Hr). destruct (net_safe cfg ra unl HC nops Hg) as (w1 & ev1 & Hr1 & Hw). congruence. Qed.
Lemma sys_pair c : ECreated c ∈ sup_trace ev -> c <> 0 /\ exists ch nd, kids (y_f y) !! c = Some ch /\ w_act (y_w y) !! c = Some nd /\ pair (y_f y) c ch (w_s nd) (w_ev nd) /\ ch_state ch = status (y_w y) c.
Proof.
  intros Hc. pose proof (yi_c _ _ _ _ _ _ _ _ HI) as Hp. apply (yi_born _ _ _ _ _ _ _ _ HI) in Hc as [nd Hn].
  assert (Hc0 : c <> 0) by (intros ->; by rewrite (cp_zero _ _ _ Hp) in Hn). split; [done|]. destruct (proj2 (cp_same _ _ _ Hp c Hc0)) as [ch Hk]; [by eauto|]. exists ch, nd.
  pose proof (cp_pair _ _ _ Hp c ch nd Hc0 ltac:(done) Hk Hn) as P. split_and!; try done. rewrite (status_st ra _ sys_net). unfold sto. rewrite Hn. apply P.
Qed.
Lemma sys_agree c : ECreated c ∈ sup_trace ev -> is_Some (w_act (y_w y) !! c) /\ FamilySpec.state_of (y_f y) c = Some (status (y_w y) c).
Proof. intros Hc. destruct (sys_pair c Hc) as (_ & ch & nd & Hk & Hn & _ & E). split; [by eauto|]. unfold FamilySpec.state_of. unfold kids in Hk. rewrite Hk. cbn. by f_equal. Qed.
Lemma sys_asked c : settled (y_f y) -> ECreated c ∈ sup_trace ev -> EShutReq c ∈ sup_trace ev <-> status (y_w y) c = AShuttingDown \/ status (y_w y) c = AShutDown.
Proof.
  intros Hs Hc. destruct (yi_f _ _ _ _ _ _ _ _ HI) as (fops & Hg & Hr). rewrite (fam_asked _ _ _ fops _ _ c Hg Hr Hs Hc). unfold shutting. rewrite (proj2 (sys_agree c Hc)).
  split; [intros (st & [= <-] & ?); done|by eauto].
Qed.
Lemma sys_removed c : settled (y_f y) -> ECreated c ∈ sup_trace ev -> removed c (sup_trace ev) <-> status (y_w y) c = AShutDown.
Proof.
  intros Hs Hc. destruct (yi_f _ _ _ _ _ _ _ _ HI) as (fops & Hg & Hr). rewrite (fam_removed _ _ _ fops _ _ c Hg Hr Hs Hc), (proj2 (sys_agree c Hc)). split; congruence.
Qed.
(** An actor off the list of its supervisor has no links. *)
Lemma sys_unlinked c : status (y_w y) c = AShutDown -> unlinked (y_w y) c.
Proof. intros H. destruct (gone_empty ra _ sys_net c H). by apply (empty_unlinked ra _ sys_net). Qed.
Lemma sys_order y' e c : ystep y (YFam FVote) = Ok (y', e) -> YSup (EVoteShutdown true) ∈ e -> ECreated c ∈ sup_trace ev ->
  status (y_w y) c = AShutDown /\ unlinked (y_w y) c /\ removed c (sup_trace ev).
Proof.
  intros Hs He Hc. destruct (yi_f _ _ _ _ _ _ _ _ HI) as (fops & Hg & Hr). cbn [SystemModel.ystep by_child handed] in Hs.
  destruct (fstep (y_f y) FVote) as [[f' ce]| |] eqn:Hv; cbn [rbind] in Hs; [|done..].
  destruct (run nstep (y_w y) (NNew <$> born ce)) as [[w' e0]| |]; cbn [rbind] in Hs; [|done..]. injection Hs as <- <-.
  apply elem_of_list_fmap in He as (x & Hx & He). injection Hx as <-. destruct (fam_order _ _ _ fops _ _ f' ce c Hg Hr Hv He Hc) as [Hst Hrem].
  assert (E : kids f' !! c = kids (y_f y) !! c).
  { pose proof (fam_reach _ _ _ fops _ _ Hg Hr) as Hfi. pose proof (step_effect hp policy sync (y_f y) FVote f' ce) as Hq. cbn [handed] in Hq.
    assert (Hqq : quietly (y_f y) f' ce).
    { apply Hq; [by destruct (fi_all _ _ Hfi)| |done|done]. intros Hb. pose proof (fi_rinv _ _ Hfi Hb) as R. destruct (r_zero _ _ _ R) as (_ & _ & ?), (r_local _ _ _ R 0 (r_f0 _ _ _ R)) as [_ ?]. done. }
    apply Hqq. intros Hin. destruct (qt_new _ _ _ Hqq c Hin) as (_ & En & _). destruct (sys_pair c Hc) as (_ & ch & nd & Hk & _). pose proof (cp_next _ _ _ (yi_c _ _ _ _ _ _ _ _ HI) c ltac:(by eauto)). lia. }
  assert (Hd : status (y_w y) c = AShutDown).
  { destruct (sys_agree c Hc) as [_ Ha]. unfold FamilySpec.state_of in Hst, Ha. unfold kids in E. rewrite E, Ha in Hst. by injection Hst. }
  split_and!; [done|by apply sys_unlinked|done].
Qed.
Lemma votes_all ev1 b ev2 : sup_trace ev = ev1 ++ EVoteShutdown b :: ev2 -> forall c, ECreated c ∈ ev1 -> removed c ev1 \/ EShutReq c ∈ ev1.
Proof.
  destruct (yi_f _ _ _ _ _ _ _ _ HI) as (fops & Hg & Hr). intros E c Hc.
  eapply (node_votes (fun _ => policy) (fun _ => sync) (if hp then [1] else [])); [| |exact E|exact Hc]; clear E Hc; destruct hp; eauto.
Qed.
(** All who were asked end, when nothing is under way. *)
Lemma sys_down : settled (y_f y) -> quiet (y_w y) -> (forall c, ECreated c ∈ sup_trace ev -> EShutReq c ∈ sup_trace ev) ->
  (forall n, status (y_w y) n = AShuttingDown -> (forall i, ~ owned i (trace (y_w y) n)) /\ names_back (trace (y_w y) n)) ->
  (exists h : N -> nat, forall c s p id, EvLink s p id ∈ trace (y_w y) c -> (h c < h s)%nat) ->
  forall c, ECreated c ∈ sup_trace ev -> status (y_w y) c = AShutDown /\ unlinked (y_w y) c /\ removed c (sup_trace ev).
Proof.
  intros Hs HQ Hall Hfree Hh c Hc. pose proof sys_net as HV.
  assert (Hd : status (y_w y) c = AShutDown).
  { destruct (all_down ra _ HV HQ) with (n := c) as [?|(Hst & E1 & E2 & _)]; try done.
    - intros n Hn. apply (yi_born _ _ _ _ _ _ _ _ HI) in Hn. apply (sys_asked n Hs Hn). auto.
    - by apply (yi_born _ _ _ _ _ _ _ _ HI).
    - exfalso. destruct (Hfree c Hst) as [F1 F2]. destruct (stuck_of ra _ HV c Hst F1 F2) as [_ [[H1 _]|(_ & _ & Hp)]]; [done|].
      destruct (sys_pair c Hc) as (Hc0 & ch & nd & Hk & Hn & P & E). unfold sto in Hp. rewrite Hn in Hp.
      destruct (yi_f _ _ _ _ _ _ _ _ HI) as (fops & Hg & Hr). destruct (settled_child _ _ _ fops _ _ c Hg Hr Hs Hc) as (ch1 & Hk1 & _ & PC & _ & HD).
      unfold kids in Hk. rewrite Hk1 in Hk. injection Hk as ->. pose proof (p_dn _ _ _ _ _ PC) as Hdn. rewrite HD, decide_False in Hdn by done.
      assert (Hin : c ∈ f_bye (y_f y)).
      { destruct Hdn as [(H1 & _)|[(H1 & _)|[(_ & _ & _ & H4)|(_ & _ & H3 & _)]]]; [| | |done].
        - destruct H1. rewrite E, Hst. cbn. lia.
        - destruct H1. rewrite E, Hst. cbn. lia.
        - exfalso. destruct H4 as [?|[[_ ?]|(_ & _ & ?)]]; done. }
      apply P in Hin. congruence. }
  split_and!; [done|by apply sys_unlinked|by apply sys_removed].
Qed.
Lemma sys_ends ev1 b ev2 : settled (y_f y) -> quiet (y_w y) -> sup_trace ev = ev1 ++ EVoteShutdown b :: ev2 -> (forall c, ECreated c ∉ ev2) ->
  (forall n, status (y_w y) n = AShuttingDown -> (forall i, ~ owned i (trace (y_w y) n)) /\ names_back (trace (y_w y) n)) ->
  (exists h : N -> nat, forall c s p id, EvLink s p id ∈ trace (y_w y) c -> (h c < h s)%nat) ->
  forall c, ECreated c ∈ sup_trace ev -> status (y_w y) c = AShutDown /\ unlinked (y_w y) c /\ removed c (sup_trace ev).
Proof.
  intros Hs HQ E Hno Hfree Hh c Hc. apply sys_down; try done. clear c Hc. intros c Hc.
  assert (Hc1 : ECreated c ∈ ev1). { rewrite E in Hc. apply elem_of_app in Hc as [?|[?|?]%elem_of_cons]; [done|done|]. by destruct (Hno c). }
  destruct (votes_all ev1 b ev2 E c Hc1) as [Hr|Ha].
  - apply (sys_asked c Hs Hc). right. apply (sys_removed c Hs Hc). rewrite E. apply removed_app. by left.
  - rewrite E. apply elem_of_app. by left.
Qed.
(** Then the supervisor agrees to end, if it waits for no spawner. *)
Lemma sys_votes : cm_state (f_cm (y_f y)) = AShuttingDown -> f_phase (y_f y) = PWorking -> (forall c, ECreated c ∈ sup_trace ev -> removed c (sup_trace ev)) ->
  (forall a i, cm_map (f_cm (y_f y)) !! a = Some i -> ci_actor i = None -> ci_active i = false) ->
  exists y' e, ystep y (YFam FVote) = Ok (y', e) /\ YSup (EVoteShutdown true) ∈ e.
Proof.
  intros Hst Hph Hrem Hsp. destruct (yi_f _ _ _ _ _ _ _ _ HI) as (fops & Hg & Hr). pose proof (fam_reach _ _ _ fops _ _ Hg Hr) as Hfi.
  destruct (fam_votes hp policy sync _ _ Hfi Hst Hph Hrem Hsp) as (f' & e & Hv & He). cbn [SystemModel.ystep by_child handed]. rewrite Hv. cbn [rbind].
  destruct (new_run cfg ra unl HC (born e) (y_w y)) as (w' & Hw & _). rewrite Hw. cbn [rbind]. eexists _, _. split; [done|]. apply elem_of_list_fmap. eauto.
Qed.
End reached.
End proofs.
