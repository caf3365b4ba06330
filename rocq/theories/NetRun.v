(** The steps of a net keep what holds in it. *)
From stdpp Require Import base list gmap.
From Verif Require Import Base Prog ActorModel ActorSpec ActorMoves ActorReach ActorProofs ActorSafeSpec ActorSafe ActorSafeRun ActorSteps NetModel NetSpec NetLocal NetViews NetSteps NetPair NetInv.
Open Scope N_scope.
Local Open Scope prog_scope.

(** ** Two descriptions of the same net *)
Lemma winv_ext ra w w' : (forall n, sto w' n = sto w n) -> (forall n, trace w' n = trace w n) -> (forall p n, w_ch w' p n = w_ch w p n) -> (forall p n, w_uid w' p n = w_uid w p n) -> winv ra w -> winv ra w'.
Proof.
  intros E1 E2 E3 E4 [V1 [F1 F2 F3 F4 F5 F6] V3 V4]. split.
  - intros n. rewrite E1, E2. apply V1.
  - split; intros *; rewrite ?E1, ?E2, ?E3, ?E4; eauto.
  - intros n. unfold self_ok. rewrite E1, E3. apply V3.
  - intros c s H. unfold pair_ok, off. rewrite !E1, !E3, E4. by apply V4.
Qed.
Lemma up_cons m l : up (m :: l) = if is_up m then m :: up l else up l.
Proof. unfold up. rewrite filter_cons. by destruct (is_up m). Qed.
Lemma dn_cons m l : dn (m :: l) = if is_up m then dn l else m :: dn l.
Proof. unfold dn. rewrite filter_cons. by destruct (is_up m). Qed.
Lemma take_same w p n m l : w_ch (take_msg w p n m l) p n = l.
Proof. cbn. unfold upd2. by rewrite bool_decide_true. Qed.
Lemma take_other w p n m l a b : ~ (a = p /\ b = n) -> w_ch (take_msg w p n m l) a b = w_ch w a b.
Proof. intros H. cbn. unfold upd2. by rewrite bool_decide_false. Qed.
Lemma take_uid w p n m l a b : ~ (a = n /\ b = p) \/ is_up m = true \/ (exists id x, m = WLinkAns id x) -> w_uid (take_msg w p n m l) a b = w_uid w a b.
Proof. intros H. cbn. destruct m; try done. unfold upd2. destruct H as [H|[H|(? & ? & ?)]]; [|done..]. by rewrite bool_decide_false. Qed.

(** The pairs which a message is not about. *)
Lemma take_pair w p n m l c s : w_ch w p n = m :: l -> c <> s -> (is_up m = true -> ~ (c = p /\ s = n)) -> (is_up m = false -> ~ (c = n /\ s = p)) -> pair_ok w c s -> pair_ok (take_msg w p n m l) c s.
Proof.
  intros E Hc H1 H2 HP. unfold pair_ok, off in *. change (sto (take_msg w p n m l)) with (sto w).
  assert (E1 : up (w_ch (take_msg w p n m l) c s) = up (w_ch w c s)).
  { destruct (decide (c = p /\ s = n)) as [[-> ->]|Hn]; [|by rewrite take_other]. rewrite take_same, E, up_cons. destruct (is_up m); [|done]. by destruct H1. }
  assert (E2 : dn (w_ch (take_msg w p n m l) s c) = dn (w_ch w s c)).
  { destruct (decide (s = p /\ c = n)) as [[-> ->]|Hn]; [|by rewrite take_other]. rewrite take_same, E, dn_cons. destruct (is_up m); [done|]. by destruct H2. }
  assert (E3 : w_uid (take_msg w p n m l) c s = w_uid w c s).
  { destruct (is_up m) eqn:Em; [apply take_uid; auto|apply take_uid; left; auto]. }
  by rewrite E1, E2, E3.
Qed.

(** ** A message is lost *)
Lemma lost ra w p n m l : w_ch w p n = m :: l -> x_sv (sto w n) = ∅ -> x_cl (sto w n) = ∅ -> winv ra w -> winv ra (take_msg w p n m l).
Proof.
  intros E Es Ec [V1 V2 V3 V4]. split.
  - apply V1.
  - by apply take_flight.
  - intros a. unfold self_ok. change (sto (take_msg w p n m l)) with (sto w). destruct (V3 a) as (? & ? & Ha). split_and!; [done..|].
    destruct (decide (a = p /\ a = n)) as [[-> ->]|Hn]; [congruence|by rewrite take_other].
  - intros c s Hcs. specialize (V4 c s Hcs). destruct (decide (is_up m = true /\ c = p /\ s = n)) as [(Hm & -> & ->)|H1].
    + unfold pair_ok, off in *. change (sto (take_msg w p n m l)) with (sto w). rewrite take_same, take_other, take_uid by (tauto || naive_solver).
      rewrite E, up_cons, Hm, Ec, lookup_empty in V4. rewrite Ec, lookup_empty, <- (app_nil_r (dn _)). destruct m; try done.
      * eapply pinv_req; [exact V4|]. by left.
      * by eapply pinv_notified.
      * by apply pinv_replied in V4 as [? _].
    + destruct (decide (is_up m = false /\ c = n /\ s = p)) as [(Hm & -> & ->)|H2].
      * unfold pair_ok, off in *. change (sto (take_msg w p n m l)) with (sto w). rewrite take_same, take_other by naive_solver.
        rewrite E, dn_cons, Hm, Es, lookup_empty in V4. rewrite Es, lookup_empty. eapply pinv_drop_dn; [|exact V4|done]. done.
      * apply take_pair; [done|done|naive_solver|naive_solver|done].
Qed.

(** ** A message is received *)
Section deliver.
Context (cfg : N -> plug -> list uact) (ra : N) (unl : N -> bool).
Context (w0 : net) (p n : N) (m : wmsg) (l : list wmsg) (s' : astore) (e : list aev).
Notation w := (take_msg w0 p n m l).
Notation s := (sto w0 n).
Notation tr := (trace w0 n).
Notation o := (receive p m).
Notation w' := (after w n s' e).
Context (HV : winv ra w0) (Hpn : p <> n) (Hm : w_ch w0 p n = m :: l).
Context (HE : astep (cfg n) ra (unl n) s o = Ok (s', e)) (HA' : aok ra s' (tr ++ e)) (Hst : x_st s <> AShutDown).
Context (Hok : Forall (ok_ev o s) e) (Hu : x_uq s' = uq_after o s) (Hends : ends o s -> e <> [] -> rank AShuttingDown <= rank (x_st s')).
Let HR : reach False s tr := a_reach (v_act _ _ HV n).
Let HR' : reach False s' (tr ++ e) := a_reach HA'.

(** To a server. *)
Lemma special_up : is_up m = true -> pair_ok w' p n.
Proof.
  intros Hup. pose proof (v_pair _ _ HV p n Hpn) as HP. unfold pair_ok, off in *.
  rewrite (sto_ne w n s' e p), sto_n, (ch_ne w n s' e p), ch_n by done. change (sto w) with (sto w0). cbn [w_uid after]. rewrite take_same, (take_other _ _ _ _ _ n p), take_uid, dn_app by naive_solver.
  rewrite Hm, up_cons, Hup in HP. destruct m as [id b|id x| |id|id] eqn:Em; try done; cbn [receive] in *.
  - eapply pinv_req; [exact HP|]. intros Hk. pose proof (link_req_step _ _ _ _ _ _ _ _ _ Hst HE) as He.
    pose proof (step_k _ _ _ _ _ HR HR' p) as HK. rewrite Hk in HK. rewrite He in HK |- *.
    rewrite (bool_decide_false (is_Some _)) in HK |- * by (rewrite Hk; by intros [? ?]).
    cbn [krun kstep] in HK. rewrite (decide_True (P := p = p)) in HK by done.
    assert (HD : forall x, dn (sent (w_uid w0 n) p [EvLinkReq p id b; EvLinkAns p id x]) = [WLinkAns id x]) by (intros x; unfold sent; cbn; by rewrite bool_decide_true).
    assert (HD0 : dn (sent (w_uid w0 n) p [EvLinkReq p id b]) = []) by done.
    destruct (decide (x_st s = AShuttingDown)) as [Es|Es].
    { rewrite (bool_decide_true (x_st s = _)) in HK |- * by done. rewrite Es in HK. cbn in HK. injection HK as _ <-. right. left. split; [|done]. exists LNotLinkable. split; [apply HD|done]. }
    rewrite (bool_decide_false (x_st s = AShuttingDown)) in HK |- * by done.
    assert (Hrk : (rank AOperational <? rank (x_st s)) = false) by (destruct (x_st s); done). rewrite Hrk in HK.
    assert (Hop : (rank (x_st s) <? rank AOperational) = negb (bool_decide (x_st s = AOperational))) by (destruct (x_st s); done). rewrite Hop in HK.
    destruct (b && negb (bool_decide (x_st s = AOperational))).
    { cbn in HK. injection HK as _ <-. right. right. left. done. }
    cbn [krun kstep] in HK. rewrite decide_True in HK by done. injection HK as _ <-. right. right. right. split; [apply HD|done].
  - rewrite (server_left _ _ _ _ _ _ HR HR' Hok p); [by eapply pinv_notified|done|done|left; by eapply notify_must].
  - apply pinv_replied in HP as [Hk HP]. assert (Hq : x_pend s !! id = Some (QUnlink p)).
    { destruct (a_trk (v_act _ _ HV n)) as [?|[T _]]; [done|]. by apply T. }
    rewrite (server_left _ _ _ _ _ _ HR HR' Hok p); [|done|done|right; eapply unlink_ok_must; eauto; done].
    rewrite (server_left_quiet _ _ _ _ _ _ HR HR' Hok _ p id); [|done..]. by rewrite app_nil_r.
Qed.
(** To a client. *)
Lemma special_dn : is_up m = false -> pair_ok w' n p.
Proof.
  intros Hup. assert (Hnp : n <> p) by congruence. pose proof (v_pair _ _ HV n p Hnp) as HP. unfold pair_ok, off in *.
  rewrite (sto_ne w n s' e p), sto_n, (ch_ne w n s' e p), ch_n by done. change (sto w) with (sto w0). cbn [w_uid after]. rewrite take_same, (take_other _ _ _ _ _ n p), up_app by naive_solver.
  rewrite Hm, dn_cons, Hup in HP. change (w_uid w n) with (w_uid (take_msg w0 p n m l) n).
  assert (Hoff : rank AShuttingDown <= rank (x_st s) -> rank AShuttingDown <= rank (x_st s')) by (pose proof (state_mono _ _ _ _ _ HR HR'); lia).
  set (uid := w_uid (take_msg w0 p n m l) n). destruct m as [id b|id x| |id|id] eqn:Em; try done; cbn [receive] in *.
  - (* the answer to a link request *)
    assert (Hq : p ∈ x_uq s <-> p ∈ x_uq s') by (by rewrite Hu).
    assert (Hid : w_uid (take_msg w0 p n (WLinkAns id x) l) n p = w_uid w0 n p) by done.
    destruct (a_fine (v_act _ _ HV n)) as [?|(_ & (L1 & L2 & _) & _)]; [done|].
    destruct (decide (lk_of (x_sv s !! p) = LkNo)) as [Hs|Hs].
    + assert (Hn : forall id0 r, OResp id match x with LOk => RpOk | _ => RpErr end = OResp id0 r -> x_pend s !! id0 <> Some (QLink p)).
      { intros id0 r [= <- _] Hp. destruct (L1 p) as (cb & i & E); [left; by exists id|]. by rewrite E in Hs. }
      rewrite Hs in HP. destruct (client_step _ _ _ _ _ _ HR HR' Hok uid p) as [(E1 & E2)|[(E1 & E2 & q & i & E3 & E4 & E5)|[(E1 & _)|(E1 & _)]]]; [done|done| | |done|done].
      * rewrite E1, E2, app_nil_r, Hs. by eapply pinv_drop_dn.
      * exfalso. rewrite Forall_forall in Hok. apply Hok in E5. apply pinv_drop_dn' in HP; [lia|done].
    + destruct (pinv_answer _ _ _ _ _ _ _ (rank AShuttingDown <= rank (x_st s')) _ _ _ HP Hs Hq) as [Hi HP'].
      assert (Hpd : x_pend s !! id = Some (QLink p)).
      { destruct (x_sv s !! p) as [[cb [i|]]|] eqn:E; try done. injection Hi as ->. destruct (L2 _ _ _ E) as [?|Hl]; [done|done|]. apply (a_late (v_act _ _ HV n)) in Hl. done. }
      destruct (client_answer (cfg n) ra (unl n) _ _ _ _ _ _ HR HR' Hok uid p id (match x with LOk => RpOk | _ => RpErr end)) as [E1 E2]; [done|done| |done|exact HE|].
      { intros E. by rewrite E in Hs. }
      rewrite E1, E2, app_nil_r. by destruct x.
  - (* an unlink request *)
    assert (Hid : uid p = id) by (unfold uid; cbn; unfold upd2; by rewrite bool_decide_true).
    change (w_uid (take_msg w0 p n (WUnlinkReq id) l) n p) with (uid p). rewrite Hid.
    destruct (client_unlink _ _ _ _ _ _ HR HR' Hok uid p eq_refl) as [(E1 & E2)|(E1 & E2 & E3)].
    + rewrite E1, E2, app_nil_r. destruct (decide (lk_of (x_sv s !! p) = LkNo)) as [Hs|Hs]; [by eapply pinv_drop_dn|].
      destruct (pinv_unlink _ _ _ _ _ _ _ _ HP Hs) as (F1 & F2 & F3 & F4 & F5). apply PHeld; try done. rewrite Hu. cbn. destruct (x_sv s !! p); [|done]. apply elem_of_app. right. by left.
    + destruct (pinv_unlink _ _ _ _ _ _ _ _ HP E1) as (F1 & F2 & F3 & F4 & F5). rewrite E2, F3. destruct E3 as [[E3 E4]|E3]; rewrite E3.
      * apply PLeft2; try done. apply Hends; [done|]. by intros ->.
      * rewrite Hid. eapply PReplied; try done. rewrite Hu. cbn. destruct (x_sv s !! p); [|done]. apply elem_of_app. right. by left.
Qed.
End deliver.

(** ** Steps *)
Lemma reqs_in x e r : x ∈ e -> req_ev x = Some r -> r ∈ reqs e.
Proof. intros H1 H2. apply elem_of_list_omap. eauto. Qed.
Lemma pend_is ra s tr id q x q' : aok ra s tr -> x_pend s !! id = Some q -> x ∈ tr -> req_ev x = Some (id, q') -> q = q'.
Proof. intros HA Hp Hx He. destruct (reach_reqs _ _ _ (a_reach HA)) as (_ & R2 & R3). eapply R2; [by apply R3|]. by eapply reqs_in. Qed.
Section step.
Context (cfg : N -> plug -> list uact) (ra : N) (unl : N -> bool) (HC : forall n, prudent_cfg ra (cfg n)).

Lemma nact_eq w n nd o s' e : w_act w !! n = Some nd -> astep (cfg n) ra (unl n) (sto w n) o = Ok (s', e) -> nact cfg ra unl w n nd o = Ok (after w n s' e, (fun x => (n, x)) <$> e).
Proof. intros E He. assert (Et : trace w n = w_ev nd) by (unfold trace; by rewrite E). unfold nact, after. unfold sto in He. rewrite E in He. by rewrite He, Et. Qed.
Lemma self_take w p n m l : (forall a, self_ok w a) -> w_ch w p n = m :: l -> forall a, self_ok (take_msg w p n m l) a.
Proof.
  intros HS E a. unfold self_ok. change (sto (take_msg w p n m l)) with (sto w). destruct (HS a) as (? & ? & Ha). split_and!; [done..|].
  destruct (decide (a = p /\ a = n)) as [[-> ->]|Hn]; [congruence|by rewrite take_other].
Qed.
Lemma act_inv w n o s' e : astep (cfg n) ra (unl n) (sto w n) o = Ok (s', e) -> (forall m, aok ra (sto w m) (trace w m)) -> flight w -> (forall m, self_ok w m) ->
  aok ra s' (trace w n ++ e) -> Forall (ok_ev o (sto w n)) e -> x_uq s' = uq_after o (sto w n) -> (ends o (sto w n) -> e <> [] -> rank AShuttingDown <= rank (x_st s')) ->
  Forall (fun x => itself n x = false) e ->
  (forall c r p, o = OLinkReq c r p -> c <> n /\ EvLink n p r ∈ trace w c) ->
  (forall a, o = OUnlinkReq a -> a <> n /\ EvUnlinkReq n (w_uid w n a) ∈ trace w a) ->
  (o <> OUnlinkNotify n) ->
  (forall id r, o = OResp id r -> x_pend (sto w n) !! id <> Some (QLink n) /\ x_pend (sto w n) !! id <> Some (QUnlink n)) ->
  (forall a, a <> n -> pair_ok (after w n s' e) n a \/ (o <> OUnlinkReq a /\ (forall id r, o = OResp id r -> x_pend (sto w n) !! id <> Some (QLink a)) /\ pair_ok w n a)) ->
  (forall c, c <> n -> pair_ok (after w n s' e) c n \/ ((forall r p, o <> OLinkReq c r p) /\ o <> OUnlinkNotify c /\ (forall id r, o = OResp id r -> x_pend (sto w n) !! id <> Some (QUnlink c)) /\ pair_ok w c n)) ->
  (forall c s, c <> s -> c <> n -> s <> n -> pair_ok w c s) ->
  winv ra (after w n s' e).
Proof.
  intros HE HA HF HS HA' Hok Hu Hends Hi Hreq Hunl Hnot Hresp H1 H2 H3. split.
  - intros m. rewrite sto_after, trace_after. by case_decide.
  - eapply after_flight; eauto. + intros c r p E. by eapply Hreq. + intros a E. by apply Hunl.
  - eapply after_self; eauto. + intros r p ->. by destruct (Hreq n r p). + intros ->. by destruct (Hunl n).
  - intros c s Hcs. destruct (decide (c = n)) as [->|Hc].
    + destruct (H1 s) as [?|(Ha & Hb & Hp)]; [congruence|done|]. eapply after_client; eauto.
    + destruct (decide (s = n)) as [->|Hs]; [|apply after_other; auto].
      destruct (H2 c) as [?|(Ha & Hb & Hd & Hp)]; [congruence|done|]. eapply after_server; eauto.
Qed.
Lemma local_inv w n nd o : winv ra w -> w_act w !! n = Some nd -> plain (w_s nd) o = true -> nrule cfg ra unl w (NLocal n o) ->
  exists s' e, nact cfg ra unl w n nd o = Ok (after w n s' e, (fun x => (n, x)) <$> e) /\ winv ra (after w n s' e).
Proof.
  intros HV E Hpl HR. cbn in HR. rewrite E in HR. destruct (HR Hpl) as (Hpr & Hself & Hx). clear HR.
  assert (Es : w_s nd = sto w n) by (unfold sto; by rewrite E). rewrite Es in *.
  destruct HV as [V1 V2 V3 V4].
  assert (Hl : lrule o (sto w n)).
  { destruct o; cbn in *; try done.
    - destruct u; cbn in *; try (by destruct Hpr); intros [[]|[]]; done.
    - destruct (x_pend (sto w n) !! id) as [q|]; [|done]. split; [apply Hpr|]. right. left. by destruct q. }
  destruct (safe_step (cfg n) ra (unl n) (HC n) o _ _ (V1 n) Hpr) as (s' & e & He).
  destruct (aok_step (cfg n) ra (unl n) (HC n) o _ _ _ _ (V1 n) Hpr Hl He) as (HA' & Hok & Hu & Hends).
  exists s', e. split; [by apply nact_eq|]. unfold no_self in Hself. rewrite He in Hself.
  assert (Hq : forall id r, o = OResp id r -> forall a, x_pend (sto w n) !! id <> Some (QLink a) /\ x_pend (sto w n) !! id <> Some (QUnlink a)).
  { intros id r -> a. cbn in Hpl. split; intros E'; by rewrite E' in Hpl. }
  eapply act_inv; eauto.
  - intros c r p ->. done.
  - intros a ->. done.
  - intros ->. done.
  - intros a Ha. right. split_and!; [by intros ->|intros id r Ho; by apply (Hq id r Ho)|apply V4; congruence].
  - intros c Hc. right. split_and!; [by intros r p ->|by intros ->|intros id r Ho; by apply (Hq id r Ho)|by apply V4].
Qed.
(** What a message is about. *)
Lemma ans_about w p n id x l q : winv ra w -> w_ch w p n = WLinkAns id x :: l -> x_pend (sto w n) !! id = Some q -> q = QLink p.
Proof.
  intros HV Em Hq. destruct (f_ans _ (v_flight _ _ HV) n p id x) as [b Hb]; [rewrite Em; by left|]. eapply pend_is; [apply (v_act _ _ HV n)|done|exact Hb|done].
Qed.
Lemma rep_about w p n id l q : winv ra w -> w_ch w p n = WUnlinkRep id :: l -> x_pend (sto w n) !! id = Some q -> q = QUnlink p.
Proof.
  intros HV Em Hq. assert (Hb : EvUnlinkReq p id ∈ trace w n) by (apply (f_rep _ (v_flight _ _ HV)); rewrite Em; by left). eapply pend_is; [apply (v_act _ _ HV n)|done|exact Hb|done].
Qed.
Definition answer_ok (s : astore) (m : wmsg) : Prop := match m with WLinkAns id _ => match x_pend s !! id with Some q => may_answer s q | None => True end | _ => True end.
Lemma receive_rule w p n m l : winv ra w -> w_ch w p n = m :: l -> answer_ok (sto w n) m -> lrule (receive p m) (sto w n).
Proof.
  intros HV Em Hrule. destruct m as [id b|id x| |id|id]; cbn in *; try done.
  - destruct (x_pend (sto w n) !! id) as [q|] eqn:Eq; [|done]. split; [done|]. left. by rewrite (ans_about _ _ _ _ _ _ _ HV Em Eq).
  - destruct (x_pend (sto w n) !! id) as [q|] eqn:Eq; [|done]. rewrite (rep_about _ _ _ _ _ _ HV Em Eq). split; [done|]. by right; right.
Qed.
Lemma deliver_inv w p n m l nd : winv ra w -> w_ch w p n = m :: l -> w_act w !! n = Some nd -> (x_st (sto w n) <> AShutDown -> no_self cfg ra unl n (sto w n) (receive p m) /\ answer_ok (sto w n) m) ->
  exists s' e, (nact cfg ra unl (take_msg w p n m l) n nd (receive p m) = Ok (after (take_msg w p n m l) n s' e, (fun x => (n, x)) <$> e) /\ winv ra (after (take_msg w p n m l) n s' e)) /\
    astep (cfg n) ra (unl n) (sto w n) (receive p m) = Ok (s', e) /\ Forall (ok_ev (receive p m) (sto w n)) e.
Proof.
  intros HV Em E HR. assert (Es : w_s nd = sto w n) by (unfold sto; by rewrite E).
  assert (Hpn : p <> n). { intros ->. destruct (v_self _ _ HV n) as (_ & _ & ?). congruence. }
  assert (Hnp : n <> p) by congruence.
  destruct (decide (x_st (sto w n) = AShutDown)) as [Hd|Hd].
  { destruct (aok_gone _ _ _ (v_act _ _ HV n) Hd) as [G1 G2]. exists (sto w n), [].
    assert (E0 : astep (cfg n) ra (unl n) (sto w n) (receive p m) = Ok (sto w n, [])) by (unfold astep, to_step, aprog, bnd, get, skip, ret; by rewrite bool_decide_true).
    split; [|by split]. split.
    - apply nact_eq; [done|]. done.
    - eapply (winv_ext _ (take_msg w p n m l)); [| | |done|by apply lost].
      + intros k. rewrite sto_after. case_decide; [by subst|done].
      + intros k. rewrite trace_after. case_decide; [subst; by rewrite app_nil_r|done].
      + intros a b. cbn. case_bool_decide; [|done]. by rewrite app_nil_r. }
  destruct (HR Hd) as [Hself Hrule]. destruct (a_trk (v_act _ _ HV n)) as [?|HT]; [done|].
  assert (Hans : forall id x q, m = WLinkAns id x -> x_pend (sto w n) !! id = Some q -> q = QLink p).
  { intros id x q -> Hq. by eapply ans_about. }
  assert (Hrep : forall id q, m = WUnlinkRep id -> x_pend (sto w n) !! id = Some q -> q = QUnlink p).
  { intros id q -> Hq. by eapply rep_about. }
  assert (Hpr : prudent ra (sto w n) (receive p m)).
  { destruct m as [id b|id x| |id|id] eqn:Emm; cbn; [done| | | |].
    - destruct (x_pend (sto w n) !! id) as [q|] eqn:Eq; [|done]. cbn in Hrule. rewrite Eq in Hrule. split; [done|]. pose proof (Hans id x q eq_refl Eq) as ->. done.
    - destruct (x_cl (sto w n) !! p) as [[]|] eqn:Ec; try done. destruct HT as [T _]. apply T in Ec as (_ & -> & _). by eexists.
    - pose proof (v_pair _ _ HV n p Hnp) as HP. unfold pair_ok in HP. rewrite Em in HP. rewrite dn_cons in HP. cbn in HP. destruct (x_sv (sto w n) !! p) as [x|] eqn:Ex; [|done].
      assert (Hx : lk_of (Some x) <> LkNo) by (apply lk_of_some; by eexists). destruct (pinv_unlink _ _ _ _ _ _ _ _ HP Hx) as [Hu _]. by destruct x as [? []].
    - destruct (x_pend (sto w n) !! id) as [q|] eqn:Eq; [|done]. by rewrite (Hrep id q eq_refl Eq). }
  pose proof (receive_rule _ _ _ _ _ HV Em Hrule) as Hl.
  destruct (safe_step (cfg n) ra (unl n) (HC n) _ _ _ (v_act _ _ HV n) Hpr) as (s' & e & He).
  destruct (aok_step (cfg n) ra (unl n) (HC n) _ _ _ _ _ (v_act _ _ HV n) Hpr Hl He) as (HA' & Hok & Hu & Hends).
  exists s', e. split; [|by split]. split; [by apply nact_eq|]. unfold no_self in Hself. rewrite He in Hself.
  pose proof (take_flight w p n m l Em (v_flight _ _ HV)) as HF.
  assert (Hresp : forall a id r, receive p m = OResp id r -> a <> p -> x_pend (sto w n) !! id <> Some (QLink a) /\ x_pend (sto w n) !! id <> Some (QUnlink a)).
  { intros a id r Ho Ha. split; intros Hq; destruct m as [i b|i x| |i|i]; cbn in Ho; try done; injection Ho as -> _; first [apply (Hans id x _ eq_refl) in Hq|apply (Hrep id _ eq_refl) in Hq]; congruence. }
  eapply (act_inv _ _ (receive p m)); try done.
  - exact (v_act _ _ HV).
  - apply self_take; [apply HV|done].
  - intros c r b Ho. destruct m as [i d|i x| |i|i]; cbn in Ho; try done. injection Ho as <- <- <-. split; [done|]. apply (f_req _ (v_flight _ _ HV)). rewrite Em. by left.
  - intros a Ho. destruct m as [i d|i x| |i|i]; cbn in Ho; try done. injection Ho as <-. split; [done|]. cbn. unfold upd2. rewrite bool_decide_true by done. apply (f_unl _ (v_flight _ _ HV)). rewrite Em. by left.
  - intros Ho. destruct m; cbn in Ho; congruence.
  - intros id r Ho. by apply (Hresp n id r).
  - intros a Ha. destruct (decide (a = p)) as [->|Hap].
    + destruct (is_up m) eqn:Eup; [|left; eapply special_dn; eauto]. right. split_and!.
      * by destruct m.
      * intros id r Ho Hq. destruct m as [i d|i x| |i|i]; cbn in Ho; try done. injection Ho as -> _. by pose proof (Hrep id _ eq_refl Hq).
      * apply take_pair; [done|done|naive_solver|congruence|]. by apply (v_pair _ _ HV).
    + right. split_and!.
      * destruct m; cbn; congruence.
      * intros id r Ho. by apply (Hresp a id r).
      * apply take_pair; [done|congruence|naive_solver|naive_solver|]. apply (v_pair _ _ HV). congruence.
  - intros c Hc. destruct (decide (c = p)) as [->|Hap].
    + destruct (is_up m) eqn:Eup; [left; eapply special_up; eauto|]. right. split_and!.
      * by destruct m.
      * by destruct m.
      * intros id r Ho Hq. destruct m as [i d|i x| |i|i]; cbn in Ho; try done. injection Ho as -> _. by pose proof (Hans id x _ eq_refl Hq).
      * apply take_pair; [done|done|congruence|naive_solver|]. by apply (v_pair _ _ HV).
    + right. split_and!.
      * destruct m; cbn; congruence.
      * destruct m; cbn; congruence.
      * intros id r Ho. by apply (Hresp c id r).
      * apply take_pair; [done|congruence|naive_solver|naive_solver|]. by apply (v_pair _ _ HV).
  - intros c s Hcs H1 H2. apply take_pair; [done|done|naive_solver|naive_solver|]. by apply (v_pair _ _ HV).
Qed.
Lemma nstep_inv w o : winv ra w -> nrule cfg ra unl w o -> exists w' e, nstep cfg ra unl w o = Ok (w', e) /\ winv ra w'.
Proof.
  intros HV HR. destruct o as [n|n o|p n]; cbn [nstep].
  - case_bool_decide as Hn; [by exists w, []|]. eexists _, _. split; [done|]. apply eq_None_not_Some in Hn.
    eapply winv_ext; [..|exact HV]; intros; cbn; try done.
    + unfold sto. cbn. destruct (decide (n0 = n)) as [->|]; [by rewrite lookup_insert, Hn|by rewrite lookup_insert_ne].
    + unfold trace. cbn. destruct (decide (n0 = n)) as [->|]; [by rewrite lookup_insert, Hn|by rewrite lookup_insert_ne].
  - destruct (w_act w !! n) as [nd|] eqn:E; [|by exists w, []]. destruct (plain (w_s nd) o) eqn:Ep; [|by exists w, []].
    destruct (local_inv w n nd o HV E Ep HR) as (s' & e & -> & HI). eauto.
  - destruct (w_ch w p n) as [|m l] eqn:Em; [by exists w, []|]. destruct (w_act w !! n) as [nd|] eqn:E.
    + cbn in HR. rewrite E, Em in HR. assert (Es : w_s nd = sto w n) by (unfold sto; by rewrite E). rewrite Es in HR.
      destruct (deliver_inv w p n m l nd HV Em E (fun _ => HR)) as (s' & e & [-> HI] & _). eauto.
    + eexists _, _. split; [done|]. apply lost; [done| | |done]; unfold sto; by rewrite E.
Qed.
Lemma winv_init : winv ra ninit.
Proof.
  split.
  - intros n. unfold sto, trace. cbn. apply aok_init.
  - split; cbn; intros *; by rewrite ?elem_of_nil, ?lookup_empty.
  - intros n. unfold self_ok, sto. by cbn.
  - intros c s _. by apply PIdle.
Qed.
Lemma net_safe ops : guarded (nstep cfg ra unl) (nrule cfg ra unl) ninit ops -> exists w ev, run (nstep cfg ra unl) ninit ops = Ok (w, ev) /\ winv ra w.
Proof.
  intros Hg. destruct (run_safe_ev (nstep cfg ra unl) (nrule cfg ra unl) (fun w _ => winv ra w)) with (ops := ops) (s := ninit) (ev := [] : list (N * aev)) as (w & e & R & HI).
  - intros s ev o HI Ho. by apply nstep_inv.
  - apply winv_init.
  - done.
  - by exists w, e.
Qed.
End step.
