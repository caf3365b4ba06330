(** The messages about links come to an end, when all actors shut down. *)
From stdpp Require Import base list gmap.
From Verif Require Import Base Prog ActorModel ActorSpec ActorMoves ActorReach ActorProofs ActorSafeSpec ActorSafe ActorSafeRun ActorSteps NetModel NetSpec NetLocal NetViews NetSteps NetSettle NetPair NetInv NetRun NetProofs.
Open Scope N_scope.

(** ** Sums *)
Lemma sum_le {A} (f g : A -> nat) l : (forall x, x ∈ l -> (f x <= g x)%nat) -> (sum_list_with f l <= sum_list_with g l)%nat.
Proof.
  induction l as [|x l IH]; intros H; cbn; [done|]. pose proof (H x ltac:(by left)). specialize (IH ltac:(intros y Hy; apply H; by right)). lia.
Qed.
Lemma sum_lt {A} (f g : A -> nat) l y : (forall x, x ∈ l -> (f x <= g x)%nat) -> y ∈ l -> (f y < g y)%nat -> (sum_list_with f l < sum_list_with g l)%nat.
Proof.
  induction l as [|x l IH]; intros H Hy Hl; cbn; [by apply elem_of_nil in Hy|]. assert (H' : forall x, x ∈ l -> (f x <= g x)%nat) by (intros z Hz; apply H; by right).
  apply elem_of_cons in Hy as [->|Hy].
  - pose proof (sum_le f g l H'). lia.
  - pose proof (H x ltac:(by left)). specialize (IH H' Hy Hl). lia.
Qed.

(** ** What a link can still lead to *)
Definition wt (m : wmsg) : nat := match m with WLinkReq _ _ => 2%nat | _ => 1%nat end.
Definition wts (l : list wmsg) : nat := sum_list_with wt l.
Definition wlk (σ : lk) : nat := match σ with LkNo => 0%nat | _ => 2%nat end.
Definition wcl (κ : option cstate) : nat := match κ with Some COperational => 2%nat | _ => 0%nat end.
Lemma wts_app l1 l2 : wts (l1 ++ l2) = (wts l1 + wts l2)%nat.
Proof. apply sum_list_with_app. Qed.
Lemma wts_cons m l : wts (m :: l) = (wt m + wts l)%nat.
Proof. done. Qed.
Lemma wt_pos m : (1 <= wt m)%nat.
Proof. destruct m; cbn; lia. Qed.

Lemma client_weight uid a σ σ' e : crun a σ e = Some σ' -> (forall p id, EvLink a p id ∉ e) -> (wlk σ' + wts (up (sent uid a e)) <= wlk σ)%nat.
Proof.
  revert σ. induction e as [|x e IH]; intros σ; cbn [crun]; [intros [= ->] _; cbn; lia|]. destruct (cstep a σ x) as [τ|] eqn:E; [|done]. intros Hr Hn.
  assert (H1 : (wlk σ' + wts (up (sent uid a e)) <= wlk τ)%nat) by (apply IH; [done|]; intros p id Hin; apply (Hn p id); by right). clear IH.
  assert (H2 : forall p id, x <> EvLink a p id) by (intros p id ->; apply (Hn p id); by left). clear Hn Hr. rewrite sent_cons.
  destruct x; cbn in E; cbn [wire]; try (injection E as <-; done).
  - case_decide as Hd; [subst; by destruct (H2 oponly id)|]. injection E as <-. by rewrite bool_decide_false.
  - case_decide as Hd; [|injection E as <-; by rewrite bool_decide_false]. rewrite bool_decide_true by done. rewrite up_cons. cbn [is_up]. rewrite wts_cons. destruct σ; cbn in E; try done; injection E as <-; cbn in *; lia.
  - injection E as <-. case_bool_decide; [|done]. rewrite up_cons. done.
  - case_decide as Hd; [|injection E as <-; by rewrite bool_decide_false]. rewrite bool_decide_true by done. rewrite up_cons. cbn [is_up]. rewrite wts_cons. destruct σ; cbn in E; try done; injection E as <-; cbn in *; lia.
  - injection E as <-. case_bool_decide; [|done]. rewrite up_cons. done.
  - case_decide as Hd; [|by injection E as <-]. destruct σ, ok; cbn in E; try done; injection E as <-; cbn in *; lia.
Qed.
Lemma server_weight uid c st κ st' κ' e : krun c (st, κ) e = Some (st', κ') -> (forall r p, EvLinkReq c r p ∉ e) -> (forall r x, EvLinkAns c r x ∉ e) ->
  (wcl κ' + wts (dn (sent uid c e)) <= wcl κ)%nat.
Proof.
  revert st κ. induction e as [|x e IH]; intros st κ; cbn [krun]; [intros [= _ ->] _ _; cbn; lia|]. destruct (kstep c (st, κ) x) as [[st1 κ1]|] eqn:E; [|done]. intros Hr Hn Hm.
  assert (H1 : (wcl κ' + wts (dn (sent uid c e)) <= wcl κ1)%nat).
  { eapply IH; [done|intros r p Hin; apply (Hn r p); by right|intros r y Hin; apply (Hm r y); by right]. }
  clear IH. assert (H2 : forall r p, x <> EvLinkReq c r p) by (intros r p ->; apply (Hn r p); by left). assert (H3 : forall r y, x <> EvLinkAns c r y) by (intros r y ->; apply (Hm r y); by left).
  clear Hn Hm Hr. rewrite sent_cons.
  destruct x; cbn in E; cbn [wire]; try (injection E as <- <-; done); try (injection E as <- <-; case_bool_decide; [|done]; rewrite dn_cons; done).
  - case_decide as Hd; [|injection E as <- <-; by rewrite bool_decide_false]. rewrite bool_decide_true by done. rewrite dn_cons. cbn [is_up]. rewrite wts_cons. destruct κ as [[]|]; try done; injection E as <- <-; cbn in *; lia.
  - rewrite bool_decide_false by (intros ->; by destruct (H3 r x)). destruct x; try (injection E as <- <-; done). rewrite decide_False in E by (intros ->; by destruct (H3 r LOk)). by injection E as <- <-.
  - case_decide; [|done]. by injection E as <- <-.
  - case_decide as Hd; [subst; by destruct (H2 r oponly)|]. by injection E as <- <-.
  - case_decide as Hd; [|by injection E as <- <-]. injection E as <- <-. cbn in *. lia.
  - case_decide as Hd; [|by injection E as <- <-]. destruct κ; try done. injection E as <- <-. cbn in *. lia.
Qed.
(** A link request during the shutdown. *)
Lemma refuse_step cfg ra unl s s' e c r p : x_st s = AShuttingDown -> astep cfg ra unl s (OLinkReq c r p) = Ok (s', e) -> s' = s /\ e = [EvLinkReq c r p; EvLinkAns c r LNotLinkable].
Proof.
  intros Hst. apply (wp_step (aprog cfg ra unl (OLinkReq c r p)) (fun _ s' e => s' = s /\ e = [EvLinkReq c r p; EvLinkAns c r LNotLinkable])).
  unfold aprog. wps; [apply bool_decide_eq_true in Heqb; congruence|]. cbn [astep_live]. unfold on_link_request. wps; [done|..]; rewrite Hst in Heqb0; by apply N.ltb_ge in Heqb0.
Qed.
Lemma client_ing a σ σ' e : crun a σ e = Some σ' -> (forall p id, EvLink a p id ∉ e) -> (forall id, σ <> LkIng id) -> forall id, σ' <> LkIng id.
Proof.
  revert σ. induction e as [|x e IH]; intros σ; cbn [crun]; [by intros [= ->]|]. destruct (cstep a σ x) as [τ|] eqn:E; [|done]. intros Hr Hn Hs.
  apply (IH τ); [done|intros p id Hin; apply (Hn p id); by right|]. clear IH Hr.
  destruct x; cbn in E; try (injection E as <-; done).
  - case_decide as Hd; [subst; destruct (Hn oponly id); by left|]. by injection E as <-.
  - case_decide as Hd; [|by injection E as <-]. destruct σ; cbn in E; try done; by injection E as <-.
  - case_decide as Hd; [|by injection E as <-]. destruct σ; cbn in E; try done; by injection E as <-.
  - case_decide as Hd; [|by injection E as <-]. destruct σ, ok; cbn in E; try done; by injection E as <-.
Qed.
(** The links which are asked for. *)
Lemma link_open_snoc a ev x : link_open a (ev ++ [x]) <->
  match x with
  | EvLink b _ _ => b = a \/ link_open a ev
  | EvLinkResp b _ | EvNotify b | EvUnlinkReply b => b <> a /\ link_open a ev
  | _ => link_open a ev
  end.
Proof. unfold link_open at 1. rewrite since_snoc. destruct x; naive_solver. Qed.
Lemma crun_open a ev σ : crun a LkNo ev = Some σ -> link_open a ev <-> exists id, σ = LkIng id.
Proof.
  revert σ. induction ev as [|x ev IH] using rev_ind; intros σ.
  { cbn. intros [= <-]. split; [by intros ?%since_nil|by intros [? ?]]. }
  rewrite crun_app. destruct (crun a LkNo ev) as [τ|]; [|done]. specialize (IH τ eq_refl). rewrite link_open_snoc. cbn. intros H.
  destruct (cstep a τ x) as [υ|] eqn:E; [|done]. injection H as ->.
  destruct x; cbn in E; try (injection E as <-; exact IH); case_decide; subst; try (injection E as <-; naive_solver).
  - destruct τ; try done. injection E as <-. naive_solver.
  - destruct τ; try done; injection E as <-; naive_solver.
  - destruct τ; try done; injection E as <-; naive_solver.
  - destruct τ; try done; injection E as <-; destruct ok; naive_solver.
Qed.

(** ** One message *)
Definition load (w : net) (c s : N) : nat :=
  (wlk (lk_of (x_sv (sto w c) !! s)) + wcl (x_cl (sto w s) !! c) + wts (up (w_ch w c s)) + wts (dn (w_ch w s c)))%nat.
Definition loads (A : list N) (w : net) : nat := sum_list_with (fun c => sum_list_with (load w c) A) A.
Record ending (ra : N) (A : list N) (w : net) : Prop := Ending {
  e_inv : winv ra w;
  e_dom : forall n, is_Some (w_act w !! n) <-> n ∈ A;
  e_src : forall p n, w_act w !! p = None -> w_ch w p n = [];
  e_st : forall n, n ∈ A -> rank AShuttingDown <= rank (x_st (sto w n));
  e_ing : forall n a id, lk_of (x_sv (sto w n) !! a) <> LkIng id;
  e_free : forall n, x_st (sto w n) = AShuttingDown -> has_any (sto w n) = false /\ x_d (sto w n) PRg = false
}.

Section step.
Context (cfg : N -> plug -> list uact) (ra : N) (unl : N -> bool) (HC : forall n, prudent_cfg ra (cfg n)).
Context (A : list N).
Lemma late_ev o s e : rank AShuttingDown <= rank (x_st s) -> (forall u, o <> OUser u) -> Forall (ok_ev o s) e -> (forall a p id, EvLink a p id ∉ e) /\ (forall i, EvAcquire i ∉ e).
Proof.
  intros Hr Ho Hok. rewrite Forall_forall in Hok. split.
  - intros a p id [Hs _]%Hok. lia.
  - intros i [[Hs _]|[u Hu]]%Hok; [lia|by apply (Ho u)].
Qed.
Lemma receive_not_user p m u : receive p m <> OUser u.
Proof. by destruct m. Qed.
Lemma down_rule w p n m l : ending ra A w -> w_ch w p n = m :: l -> n ∈ A -> x_st (sto w n) <> AShutDown -> no_self cfg ra unl n (sto w n) (receive p m) /\ answer_ok (sto w n) m.
Proof.
  intros HE Em Hn Hd. pose proof (e_inv _ _ _ HE) as HV. pose proof (v_act _ _ HV n) as HA. pose proof (e_st _ _ _ HE n Hn) as Hr.
  assert (Hans : answer_ok (sto w n) m).
  { destruct m as [id b|id x| |id|id]; try done. cbn. destruct (x_pend (sto w n) !! id) as [q|] eqn:Eq; [|done]. exfalso.
    pose proof (ans_about _ _ _ _ _ _ _ _ HV Em Eq) as ->. destruct (a_fine HA) as [?|(_ & (L1 & _) & _)]; [done|].
    destruct (L1 p) as (cb & i & Ei); [left; by exists id|]. apply (e_ing _ _ _ HE n p i). by rewrite Ei. }
  split; [|done]. unfold no_self. destruct (astep _ _ _ _ _) as [[s' e]| |] eqn:He; [|done..].
  destruct (a_trk HA) as [?|HT]; [done|].
  destruct (local_step (cfg n) ra (unl n) _ _ _ _ (receive_rule _ _ _ _ _ _ HV Em Hans) HT (a_late HA) Hd He) as [_ Hok].
  destruct (late_ev _ _ _ Hr (receive_not_user p m) Hok) as [Hl _]. apply Forall_forall. intros x Hx. destruct x; try done. by apply Hl in Hx.
Qed.
Lemma count_app x l1 l2 : count x (l1 ++ l2) = count x l1 + count x l2.
Proof. unfold count. rewrite filter_app, app_length. lia. Qed.
Lemma count_none x l : x ∉ l -> count x l = 0.
Proof. unfold count. intros H. induction l as [|y l IH]; [done|]. apply not_elem_of_cons in H as [H1 H2]. rewrite filter_cons_False by congruence. by apply IH. Qed.

(** The step of the receiver. *)
Lemma receive_weight p m s tr s' e uid :
  reach False s tr -> reach False s' (tr ++ e) -> Forall (ok_ev (receive p m) s) e -> rank AShuttingDown <= rank (x_st s) -> (forall n, astep (cfg n) ra (unl n) s (receive p m) = Ok (s', e) ->
  (forall a, (wlk (lk_of (x_sv s' !! a)) + wts (up (sent uid a e)) <= wlk (lk_of (x_sv s !! a)))%nat) /\
  (forall c, c <> p \/ (forall id b, m <> WLinkReq id b) -> (wcl (x_cl s' !! c) + wts (dn (sent uid c e)) <= wcl (x_cl s !! c))%nat) /\
  (forall id b, m = WLinkReq id b -> (wcl (x_cl s' !! p) + wts (dn (sent uid p e)) <= wcl (x_cl s !! p) + 1)%nat)).
Proof.
  intros HR HR' Hok Hr n He. destruct (late_ev _ _ _ Hr (receive_not_user p m) Hok) as [Hl _]. split_and!.
  - intros a. apply client_weight; [by eapply step_lk|]. intros q id. apply Hl.
  - intros c Hc. eapply server_weight; [by eapply (step_k False s s' tr e HR HR' c)|..].
    + intros r q Hin. rewrite Forall_forall in Hok. apply Hok in Hin. cbn in Hin. destruct m as [i d| | | |]; try done. injection Hin as -> -> ->. destruct Hc as [?|Hc]; [done|]. by eapply Hc.
    + intros r x Hin. rewrite Forall_forall in Hok. apply Hok in Hin. cbn in Hin. destruct Hin as [(Hin & _)|[q Hin]]; destruct m as [i d| | | |]; try done. injection Hin as -> -> ->. destruct Hc as [?|Hc]; [done|]. by eapply Hc.
  - intros id b ->. cbn [receive] in *. destruct (decide (x_st s = AShutDown)) as [Hd|Hd].
    { destruct (dead_step _ _ _ _ _ _ _ Hd He) as [-> ->]. cbn. lia. }
    assert (Hs : x_st s = AShuttingDown) by (destruct (x_st s); cbn in Hr; try lia; done).
    destruct (refuse_step _ _ _ _ _ _ _ _ _ Hs He) as [-> ->]. rewrite !sent_cons. cbn [wire]. rewrite bool_decide_true by done. rewrite dn_cons. cbn. lia.
Qed.
Lemma deliver_step w p n : ending ra A w -> n ∈ A -> w_ch w p n <> [] ->
  exists w' e, nstep cfg ra unl w (NDeliver p n) = Ok (w', e) /\ ending ra A w' /\ (loads A w' < loads A w)%nat /\ (forall c a q id, EvLink a q id ∈ trace w' c -> EvLink a q id ∈ trace w c).
Proof.
  intros HE Hn Hm. destruct (w_ch w p n) as [|m l] eqn:Em; [done|]. clear Hm. pose proof (e_inv _ _ _ HE) as HV.
  assert (HP : p ∈ A). { apply (e_dom _ _ _ HE). apply not_eq_None_Some. intros Hp. by rewrite (e_src _ _ _ HE p n Hp) in Em. }
  assert (Hpn : p <> n). { intros ->. destruct (v_self _ _ HV n) as (_ & _ & ?). congruence. }
  pose proof Hn as [nd E]%(e_dom _ _ _ HE).
  destruct (deliver_inv cfg ra unl HC w p n m l nd HV Em E (down_rule w p n m l HE Em Hn)) as (s' & e & [Hs HV'] & He & Hok).
  pose proof (e_st _ _ _ HE n Hn) as Hr. destruct (late_ev _ _ _ Hr (receive_not_user p m) Hok) as [HL HAc].
  set (w' := after (take_msg w p n m l) n s' e) in *.
  assert (HA : aok ra (sto w n) (trace w n)) by apply HV.
  assert (Esn : sto w' n = s') by (unfold w'; rewrite sto_after; by rewrite decide_True).
  assert (Etn : trace w' n = trace w n ++ e) by (unfold w'; rewrite trace_after; by rewrite decide_True).
  assert (Es : forall k, k <> n -> sto w' k = sto w k) by (intros k Hk; unfold w'; rewrite sto_after; by rewrite decide_False).
  assert (Et : forall k, k <> n -> trace w' k = trace w k) by (intros k Hk; unfold w'; rewrite trace_after; by rewrite decide_False).
  assert (HR' : reach False s' (trace w n ++ e)) by (rewrite <- Esn, <- Etn; apply (a_reach (v_act _ _ HV' n))).
  destruct (receive_weight p m _ _ _ _ (w_uid (take_msg w p n m l) n) (a_reach HA) HR' Hok Hr n He) as (W1 & W2 & W3).
  exists w', ((fun x => (n, x)) <$> e). split_and!.
  - cbn [nstep]. by rewrite Em, E.
  - split.
    + done.
    + intros k. rewrite <- (e_dom _ _ _ HE k). unfold w'. cbn. destruct (decide (k = n)) as [->|Hk]; [rewrite lookup_insert, E; split; eauto|by rewrite lookup_insert_ne].
    + intros a b. unfold w'. cbn. intros [Ha Hb]%lookup_insert_None. rewrite bool_decide_false by congruence. unfold upd2. rewrite bool_decide_false; [by apply (e_src _ _ _ HE)|]. intros [-> _]. apply (e_dom _ _ _ HE) in HP as [? ?]. congruence.
    + intros k Hk. destruct (decide (k = n)) as [->|Hkn]; [|rewrite Es by done; by apply (e_st _ _ _ HE)]. rewrite Esn. pose proof (state_mono False _ _ _ _ (a_reach HA) HR'). lia.
    + intros k a id. destruct (decide (k = n)) as [->|Hkn]; [|rewrite Es by done; by apply (e_ing _ _ _ HE)]. rewrite Esn.
      eapply client_ing; [by eapply (step_lk False _ _ _ _ (a_reach HA) HR')|intros ? ?; apply HL|apply (e_ing _ _ _ HE)].
    + intros k. destruct (decide (k = n)) as [->|Hkn]; [|rewrite Es by done; apply (e_free _ _ _ HE)]. rewrite Esn. intros Hst.
      assert (Hst0 : x_st (sto w n) = AShuttingDown).
      { pose proof (state_mono False _ _ _ _ (a_reach HA) HR') as Hmo. rewrite Hst in Hmo. destruct (x_st (sto w n)); cbn in *; try lia; done. }
      destruct (e_free _ _ _ HE n Hst0) as [F1 F2]. split.
      * apply (reach_has_none _ _ _ HR'). rewrite (reach_has_none _ _ _ (a_reach HA)) in F1. intros i. specialize (F1 i). unfold owned in *. rewrite !count_app, (count_none (EvAcquire i) e) by apply HAc. lia.
      * apply (reach_voted _ _ _ HR'). apply elem_of_app. left. by apply (reach_voted _ _ _ (a_reach HA)).
  - assert (HD : forall c s, (load w' c s <= load w c s /\ (c = p -> s = n -> is_up m = true -> load w' c s < load w c s) /\ (c = n -> s = p -> is_up m = false -> load w' c s < load w c s))%nat).
    { intros c s. destruct (decide (c = s)) as [->|Hcs].
      { split; [|split; congruence]. destruct (v_self _ _ HV' s) as (Z1 & Z2 & Z3). unfold load. rewrite Z1, Z2, Z3. cbn. lia. }
      unfold load. destruct (decide (c = n)) as [->|Hc]; [|destruct (decide (s = n)) as [->|Hsn]].
      - rewrite Esn, (Es s) by done. specialize (W1 s).
        assert (E1 : w_ch w' n s = w_ch w n s ++ sent (w_uid (take_msg w p n m l) n) s e). { unfold w'. cbn. rewrite bool_decide_true by done. unfold upd2. rewrite bool_decide_false; [done|]. intros [-> ?]. congruence. }
        rewrite E1, up_app, wts_app. destruct (decide (s = p)) as [->|Hsp].
        + assert (E2 : w_ch w' p n = l). { unfold w'. cbn. rewrite bool_decide_false by done. unfold upd2. by rewrite bool_decide_true. }
          rewrite E2, Em, dn_cons. destruct (is_up m) eqn:Eu; [split_and!; [lia|congruence..]|]. rewrite wts_cons. pose proof (wt_pos m). split_and!; [lia|congruence|lia].
        + assert (E2 : w_ch w' s n = w_ch w s n). { unfold w'. cbn. rewrite bool_decide_false by done. unfold upd2. rewrite bool_decide_false; [done|]. intros [-> _]. congruence. }
          rewrite E2. split_and!; [lia|congruence..].
      - rewrite Esn, (Es c) by done.
        assert (E1 : w_ch w' n c = w_ch w n c ++ sent (w_uid (take_msg w p n m l) n) c e). { unfold w'. cbn. rewrite bool_decide_true by done. unfold upd2. rewrite bool_decide_false; [done|]. intros [-> ?]. congruence. }
        rewrite E1, dn_app, wts_app. destruct (decide (c = p)) as [->|Hsp].
        + assert (E2 : w_ch w' p n = l). { unfold w'. cbn. rewrite bool_decide_false by done. unfold upd2. by rewrite bool_decide_true. }
          rewrite E2, Em, up_cons. destruct m as [id b|id x| |id|id] eqn:Emm; cbn [is_up].
          * specialize (W3 id b eq_refl). rewrite wts_cons. cbn [wt]. split_and!; [lia|lia|congruence].
          * specialize (W2 p ltac:(right; congruence)). split_and!; [lia|congruence|congruence].
          * specialize (W2 p ltac:(right; congruence)). rewrite wts_cons. cbn [wt]. split_and!; [lia|lia|congruence].
          * specialize (W2 p ltac:(right; congruence)). split_and!; [lia|congruence|congruence].
          * specialize (W2 p ltac:(right; congruence)). rewrite wts_cons. cbn [wt]. split_and!; [lia|lia|congruence].
        + specialize (W2 c ltac:(by left)).
          assert (E2 : w_ch w' c n = w_ch w c n). { unfold w'. cbn. rewrite bool_decide_false by done. unfold upd2. rewrite bool_decide_false; [done|]. intros [-> _]. congruence. }
          rewrite E2. split_and!; [lia|congruence..].
      - rewrite !Es by done.
        assert (E1 : forall a b, a <> n -> b <> n -> w_ch w' a b = w_ch w a b). { intros a b Ha Hb. unfold w'. cbn. rewrite bool_decide_false by done. unfold upd2. rewrite bool_decide_false; [done|]. intros [_ ->]. congruence. }
        rewrite !E1 by done. split_and!; [lia|congruence..]. }
    unfold loads. destruct (is_up m) eqn:Eu.
    + apply (sum_lt _ _ A p); [|done|].
      * intros c _. apply sum_le. intros s _. apply HD.
      * apply (sum_lt _ _ A n); [intros s _; apply HD|done|]. destruct (HD p n) as (_ & H1 & _). auto.
    + apply (sum_lt _ _ A n); [|done|].
      * intros c _. apply sum_le. intros s _. apply HD.
      * apply (sum_lt _ _ A p); [intros s _; apply HD|done|]. destruct (HD n p) as (_ & _ & H1). auto.
  - intros c a q id. destruct (decide (c = n)) as [->|Hc]; [|by rewrite Et by done]. rewrite Etn. intros [?|Hin]%elem_of_app; [done|]. by apply HL in Hin.
Qed.
End step.

(** ** All messages *)
Lemma quiet_dec (A : list N) w : (forall n, is_Some (w_act w !! n) <-> n ∈ A) -> (forall p n, w_act w !! p = None -> w_ch w p n = []) -> (exists o, takes w o) \/ quiet w.
Proof.
  intros HD HS. destruct (decide (Exists (fun p => Exists (fun n => w_ch w p n <> []) A) A)) as [H|H].
  - left. apply Exists_exists in H as (p & Hp & H). apply Exists_exists in H as (n & Hn & H). exists (NDeliver p n). split; [by apply HD|done].
  - right. intros p n Hn. destruct (w_act w !! p) as [x|] eqn:Ep; [|by apply HS]. destruct (decide (w_ch w p n = [])) as [|He]; [done|]. destruct H.
    apply Exists_exists. exists p. split; [apply HD; by eexists|]. apply Exists_exists. exists n. split; [by apply HD|done].
Qed.
Section ends.
Context (cfg : N -> plug -> list uact) (ra : N) (unl : N -> bool) (HC : forall n, prudent_cfg ra (cfg n)).
Context (A : list N) (h : N -> nat).
Definition leaves (w : net) : Prop := forall c s p id, EvLink s p id ∈ trace w c -> (h c < h s)%nat.
Lemma takes_run ops w : ending ra A w -> leaves w -> guarded (nstep cfg ra unl) takes w ops ->
  (length ops <= loads A w)%nat /\ exists w' ev, run (nstep cfg ra unl) w ops = Ok (w', ev) /\ ending ra A w' /\ leaves w'.
Proof.
  revert w. induction ops as [|o ops IH]; intros w HE HH Hg.
  { split; [cbn; lia|]. exists w, []. done. }
  destruct Hg as [Ho Hg]. destruct o as [| |p n]; try done. destruct Ho as [Hn Hm]. apply (e_dom _ _ _ HE) in Hn.
  destruct (deliver_step cfg ra unl HC A w p n HE Hn Hm) as (w1 & e1 & Hs & HE1 & Hl & Ht). rewrite Hs in Hg.
  destruct (IH w1 HE1 ltac:(intros c s q id Hin; by eapply HH, Ht) Hg) as (Hlen & w' & ev & Hr & H'). split; [cbn; lia|].
  exists w', (e1 ++ ev). split; [|done]. cbn [run]. rewrite Hs. cbn [rbind]. by rewrite Hr.
Qed.
Lemma ending_done w : ending ra A w -> leaves w -> quiet w -> forall n, is_Some (w_act w !! n) -> unlinked w n /\ finishes cfg ra unl w n.
Proof.
  intros HE HH HQ n Hn. pose proof (e_inv _ _ _ HE) as HV.
  assert (Hf : forall n, status w n = AShuttingDown -> (forall i, ~ owned i (trace w n)) /\ names_back (trace w n)).
  { intros k Hk. rewrite (status_st _ _ HV) in Hk. destruct (e_free _ _ _ HE k Hk) as [F1 F2]. pose proof (a_reach (v_act _ _ HV k)) as HR. split; [by apply (reach_has_none _ _ _ HR)|]. right. by apply (reach_voted _ _ _ HR). }
  eapply last_one; [exact HV|exact HC|done|intros Hs; by apply Hf|].
  eapply all_down; [exact HV|done| |exact Hf|by exists h|done].
  intros k Hk. rewrite (status_st _ _ HV). apply (e_dom _ _ _ HE) in Hk. pose proof (e_st _ _ _ HE k Hk) as Hr. destruct (x_st (sto w k)); cbn in Hr; try lia; auto.
Qed.
End ends.
