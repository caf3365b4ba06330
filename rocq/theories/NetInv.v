(** What holds in a net of actors: each of them, and what is under way. *)
From stdpp Require Import base list gmap.
From Verif Require Import Base Prog ActorModel ActorSpec ActorMoves ActorReach ActorProofs ActorSafeSpec ActorSafe ActorSafeRun ActorSteps NetModel NetSpec NetLocal NetViews NetSteps NetSettle NetPair.
Open Scope N_scope.
Local Open Scope prog_scope.

(** ** One actor *)
Record aok (ra : N) (s : astore) (tr : list aev) : Prop := AOK {
  a_reach : reach False s tr;
  a_fine : fine ra s;
  a_late : forall q, q ∈ x_late s -> link_query q = false;
  a_trk : x_st s = AShutDown \/ tracked s;
  a_now : ~ late_link tr;
  a_idle : x_prog s = false;
  a_down : settled_down s tr;
  a_held : (forall c r p, EvLinkReq c r p ∉ tr) -> forall a, a ∈ x_uq s -> x_sv s !! a = None;
  a_open : (exists b, EvState b AOperational ∈ tr) -> forall c r, x_cl s !! c <> Some (CPending r)
}.
Arguments a_reach {_ _ _}. Arguments a_fine {_ _ _}. Arguments a_late {_ _ _}. Arguments a_trk {_ _ _}. Arguments a_now {_ _ _}. Arguments a_idle {_ _ _}. Arguments a_down {_ _ _}. Arguments a_held {_ _ _}. Arguments a_open {_ _ _}.
Lemma aok_init ra : aok ra ainit [].
Proof. split; [constructor|right; apply sane_ainit|by intros q ?%elem_of_nil|right; split; cbn; intros *; by rewrite lookup_empty| |done|done|done|by intros [b ?%elem_of_nil]]. intros (t1 & ? & ? & ? & ? & E & _). by destruct t1. Qed.
Lemma state_of_in tr e : rank AShuttingDown <= rank (state_of (tr ++ e)) -> rank AShuttingDown <= rank (state_of tr) \/ exists b n, EvState b n ∈ e /\ (n = AShuttingDown \/ n = AShutDown).
Proof.
  unfold state_of. rewrite foldl_app. generalize (foldl (fun s x => match x with EvState _ n => n | _ => s end) AInitializing tr).
  induction e as [|x e IH]; intros st H; [by left|]. cbn in H. apply IH in H as [H|(b & n & H & Hn)]; [|right; exists b, n; split; [by right|done]].
  destruct x; try (by left). right. eexists _, _. split; [by left|]. destruct n; cbn in H; try lia; auto.
Qed.
Lemma krun_in c st κ st' κ' e b n : krun c (st, κ) e = Some (st', κ') -> EvState b n ∈ e -> rank n <= rank st'.
Proof.
  revert st κ. induction e as [|x e IH]; intros st κ; [by intros _ ?%elem_of_nil|]. cbn [krun]. destruct (kstep c (st, κ) x) as [[st1 κ1]|] eqn:E; [|done]. intros Hk [<-|H]%elem_of_cons; [|by eapply IH].
  cbn in E. case_decide; [|done]. injection E as <- <-. clear -Hk. revert n κ Hk. induction e as [|x e IH]; intros n κ; cbn [krun]; [intros [= -> _]; lia|].
  destruct (kstep c (n, κ) x) as [[st1 κ1]|] eqn:E; [|done]. intros H. apply IH in H. enough (rank n <= rank st1) by lia. clear -E. destruct x; cbn in E; repeat case_match; destruct_and?; simplify_eq; lia.
Qed.
(** A server which runs makes nobody wait. *)
Lemma krun_open c st κ e st' κ' : krun c (st, κ) e = Some (st', κ') -> rank AOperational <= rank st -> (forall r, κ <> Some (CPending r)) -> forall r, κ' <> Some (CPending r).
Proof.
  revert st κ. induction e as [|x e IH]; intros st κ; cbn [krun]; [intros [= -> ->]; done|]. destruct (kstep c (st, κ) x) as [[st1 κ1]|] eqn:E; [|done]. intros Hk Hr Hp. apply (IH _ _ Hk); clear IH Hk.
  - destruct x; cbn in E; repeat case_match; destruct_and?; simplify_eq; lia.
  - destruct x; cbn in E; repeat case_match; simplify_eq; try done.
    match goal with H : _ && _ = true |- _ => apply andb_true_iff in H as [_ ?%N.ltb_lt] end. exfalso. cbn in Hr. lia.
Qed.
Lemma krun_answered c st κ e st' κ' : krun c (st, κ) e = Some (st', κ') -> Forall (fun x => match x with EvLinkReq _ _ _ => False | _ => True end) e ->
  (forall r, κ <> Some (CPending r)) \/ (exists r, EvLinkAns c r LOk ∈ e) -> forall r, κ' <> Some (CPending r).
Proof.
  revert st κ. induction e as [|x e IH]; intros st κ; cbn [krun]; [intros [= -> ->] _ [?|(r & ?%elem_of_nil)]; done|]. destruct (kstep c (st, κ) x) as [[st1 κ1]|] eqn:E; [|done].
  intros Hk [Hx Hf]%Forall_cons Hp. apply (IH _ _ Hk Hf); clear IH Hk. destruct Hp as [Hp|(r & [<-|Hr]%elem_of_cons)]; [|left|right; eauto].
  - left. destruct x; cbn in E; repeat case_match; simplify_eq; done.
  - cbn in E. rewrite decide_True in E by done. repeat case_match; simplify_eq; done.
Qed.

Section actor.
Context (cfg : plug -> list uact) (ra : N) (unl : bool) (HC : prudent_cfg ra cfg).
Lemma shut_must s s' e : x_st s <> AShutDown -> rank (x_st s) < rank AShuttingDown -> astep cfg ra unl s OShutReq = Ok (s', e) -> EvState (x_st s) AShuttingDown ∈ e.
Proof.
  intros Hst Hr. apply (wp_step (aprog cfg ra unl OShutReq) (fun _ _ e => EvState (x_st s) AShuttingDown ∈ e)).
  unfold aprog. wps; [by apply bool_decide_eq_true in Heqb|]. cbn [astep_live]. unfold set_state. wps.
  - apply wp_elem. by left.
  - apply N.ltb_ge in H. lia.
Qed.
(** A step. *)
Lemma safe_step o s tr : aok ra s tr -> prudent ra s o -> exists s' e, astep cfg ra unl s o = Ok (s', e).
Proof.
  intros HA Hp. assert (W : wp true (aprog cfg ra unl o) (fun _ s' _ => fine ra s') s []).
  { destruct (a_fine HA) as [Hs|Hs]; [|by apply aprog_ok]. unfold aprog. wps; [by left|]. by apply bool_decide_eq_false in Heqb. }
  unfold wp in W. unfold astep, to_step. destruct (aprog cfg ra unl o s) as [[[s1 e1] []]| |]; [|done..]. by eexists _, _.
Qed.
Lemma aok_gone s tr : aok ra s tr -> x_st s = AShutDown -> x_sv s = ∅ /\ x_cl s = ∅.
Proof. intros HA. apply (reach_gone _ _ _ (a_reach HA)), HA. Qed.
Lemma aok_step o s tr s' e : aok ra s tr -> prudent ra s o -> lrule o s -> astep cfg ra unl s o = Ok (s', e) ->
  aok ra s' (tr ++ e) /\ Forall (ok_ev o s) e /\ x_uq s' = uq_after o s /\ (ends o s -> e <> [] -> rank AShuttingDown <= rank (x_st s')).
Proof.
  intros HA Hp Hl He. destruct (decide (x_st s = AShutDown)) as [Hd|Hd].
  { destruct (dead_step _ _ _ _ _ _ _ Hd He) as [-> ->]. rewrite app_nil_r. split_and!; try done.
    unfold uq_after. destruct (aok_gone _ _ HA Hd) as [-> _]. by destruct o. }
  destruct (a_trk HA) as [?|HT]; [done|].
  destruct (local_step cfg ra unl o s s' e Hl HT (a_late HA) Hd He) as [(Eu & El & Ht) Hok].
  assert (HR : reach False s' (tr ++ e)).
  { assert (W : wp false (aprog cfg ra unl o) (fun _ => reach False) s tr) by (apply aprog_reach; [done|exact (a_reach HA)|done]).
    unfold wp in W. unfold astep, to_step in He. destruct (aprog cfg ra unl o s) as [[[s1 e1] []]| |]; [|done..]. by injection He as <- <-. }
  split_and!; [|done|done|].
  - assert (HF' : fine ra s'). { destruct (a_fine HA) as [?|HS]; [done|]. refine (wp_step _ (fun _ s' _ => fine ra s') _ _ _ _ He). pose proof (aprog_ok cfg ra unl HC o s [] HS Hp) as W. unfold wp in *. by destruct (aprog cfg ra unl o s) as [[[s1 e1] []]| |]. }
    assert (HN : ~ late_link (tr ++ e)).
    { intros (t1 & a & p & id & t2 & E & Hr). apply app_eq_inv in E as [(k & -> & E)|(k & -> & E)].
      * destruct k as [|x k]; [|destruct (a_now HA); injection E as <- E; by exists t1, a, p, id, k]. cbn in E.
        assert (Hs : starts o s) by (rewrite Forall_forall in Hok; apply (Hok (EvLink a p id)); rewrite <- E; by left).
        rewrite app_nil_r in *. rewrite <- (reach_state _ _ _ (a_reach HA)) in Hr. destruct Hs. lia.
      * subst e. rewrite Forall_app, Forall_cons in Hok. destruct Hok as (H1 & Hs & _). cbn in Hs. destruct (state_of_in _ _ Hr) as [Hr'|(b & n & Hin & Hn)].
        { rewrite <- (reach_state _ _ _ (a_reach HA)) in Hr'. destruct Hs. lia. }
        rewrite Forall_forall in H1. apply H1 in Hin. destruct Hn as [-> | ->]; cbn in Hin; [subst o; by destruct Hs|].
        eapply starts_quits; [by apply Forall_nil|exact Hs|by left]. }
    split; [done|done| |done|done| | | |].
    + rewrite El. destruct o; cbn; try apply HA.
      * cbn in Hl. destruct (x_pend s !! id); [|apply HA]. intros p [Hq|Hq]%elem_of_app; [by apply HA|]. apply elem_of_list_singleton in Hq. by subst.
      * intros q Hq. apply HA. destruct (x_late s); [done|by right].
    + refine (wp_step _ (fun _ s' _ => x_prog s' = false) _ _ _ _ He). apply aprog_idle, HA.
    + eapply settle_step; [apply (a_reach HA)|exact HR|apply HA|apply HA|apply HA|apply HA|exact Hl|exact Hok|exact He].
    + intros Hno a Ha. assert (Hno1 : forall c r p, EvLinkReq c r p ∉ tr) by (intros c r p Hc; apply (Hno c r p), elem_of_app; by left).
      pose proof (reach_alone _ _ _ (a_reach HA) Hno1) as Hc. enough (lk_of (x_sv s' !! a) = LkNo) by (destruct (x_sv s' !! a) as [[? []]|]; done).
      assert (Hold : a ∈ x_uq s -> lk_of (x_sv s !! a) = LkNo) by (intros Hu; by rewrite (a_held HA Hno1 a Hu)).
      assert (o = OUnlinkReq a \/ o <> OUnlinkReq a) as [-> |Ho] by (destruct o as [| | | | | | |b| | | |]; try (by right); destruct (decide (b = a)); [left|right]; congruence).
      * destruct (client_unlink _ _ _ _ _ _ (a_reach HA) HR Hok (fun _ => 0) a eq_refl) as [(E1 & E2)|(_ & E1 & _)]; [|done].
        destruct (x_sv s !! a) as [x|] eqn:Ex; [|done]. assert (Hin : EvUnlinkReply a ∈ e) by (eapply reply_must; eauto).
        apply elem_of_list_split in Hin as (e1 & e2 & ->). unfold sent, up in E2. rewrite omap_app, filter_app in E2. cbn in E2. rewrite bool_decide_true, filter_cons_True in E2 by done. by apply app_eq_nil in E2 as [_ ?].
      * assert (Hu : a ∈ x_uq s). { rewrite Eu in Ha. unfold uq_after in Ha. destruct o; try done. destruct (x_sv s !! a0); [|done]. apply elem_of_app in Ha as [?|?%elem_of_list_singleton]; [done|congruence]. }
        specialize (Hold Hu). destruct (client_step _ _ _ _ _ _ (a_reach HA) HR Hok (fun _ => 0) a Ho) as [(E1 & _)|[(_ & _ & p & id & E1 & _)|[(_ & E1 & _)|(_ & E1 & _)]]]; [|congruence| |done|done].
        -- intros id r -> Hq. destruct (a_fine HA) as [?|(_ & (L1 & _) & _)]; [done|]. destruct (L1 a) as (cb & i & E); [left; by exists id|]. by rewrite E in Hold.
        -- exfalso. destruct HF' as [Hd'|(_ & (_ & _ & L3 & _) & _)].
           { destruct (reach_gone _ _ _ HR) as [Hv _]; [done|done|by rewrite Hv in E1]. }
           destruct (x_sv s' !! a) as [x|] eqn:E; [|done]. pose proof (L3 _ _ Ha E) as L. by destruct x as [cb []].
    + intros [b Hb] c r Hc. pose proof (step_k _ _ _ _ _ (a_reach HA) HR c) as Hk. rewrite Hc in Hk. apply elem_of_app in Hb as [Hb|Hb].
      * refine (krun_open _ _ _ _ _ _ Hk _ _ r eq_refl); [|intros r'; apply (a_open HA); by exists b].
        eapply (krun_in 0); [apply (reach_k _ 0 _ _ (a_reach HA))|exact Hb].
      * rewrite Forall_forall in Hok. pose proof (Hok _ Hb) as [-> Hi]. cbn in Hi. refine (krun_answered _ _ _ _ _ _ Hk _ _ r eq_refl).
        -- apply Forall_forall. intros x Hx. apply Hok in Hx. by destruct x.
        -- destruct (x_cl s !! c) as [[r'| |]|] eqn:E; [|by left..]. right. exists r'.
           eapply start_step; [|exact Hi|exact He|exact E]. by eapply (reach_wait _ _ _ (a_reach HA)).
  - intros [Hn [Hsd|[-> Hr]]] _.
    + rewrite <- Hsd. eapply state_mono; [apply (a_reach HA)|done].
    + eapply (krun_in 0); [apply (step_k _ _ _ _ _ (a_reach HA) HR)|]. eapply shut_must; eassumption.
Qed.
End actor.

(** ** The net *)
Definition sto (w : net) (n : N) : astore := match w_act w !! n with Some nd => w_s nd | None => ainit end.
Record flight (w : net) : Prop := Flight {
  f_req : forall c s id p, WLinkReq id p ∈ w_ch w c s -> EvLink s p id ∈ trace w c;
  f_ans : forall c s id x, WLinkAns id x ∈ w_ch w s c -> exists p, EvLink s p id ∈ trace w c;
  f_pnd : forall c s r, x_cl (sto w s) !! c = Some (CPending r) -> exists p, EvLink s p r ∈ trace w c;
  f_unl : forall c s k, WUnlinkReq k ∈ w_ch w s c -> EvUnlinkReq c k ∈ trace w s;
  f_rep : forall c s k, WUnlinkRep k ∈ w_ch w c s -> EvUnlinkReq c k ∈ trace w s;
  f_uq : forall c s, s ∈ x_uq (sto w c) -> EvUnlinkReq c (w_uid w c s) ∈ trace w s
}.
Definition off (w : net) (c : N) : Prop := rank AShuttingDown <= rank (x_st (sto w c)).
Definition pair_ok (w : net) (c s : N) : Prop :=
  pinv (lk_of (x_sv (sto w c) !! s)) (x_cl (sto w s) !! c) (up (w_ch w c s)) (dn (w_ch w s c)) (s ∈ x_uq (sto w c)) (w_uid w c s) (off w c).
Definition self_ok (w : net) (n : N) : Prop := x_sv (sto w n) !! n = None /\ x_cl (sto w n) !! n = None /\ w_ch w n n = [].
Record winv (ra : N) (w : net) : Prop := WInv {
  v_act : forall n, aok ra (sto w n) (trace w n);
  v_flight : flight w;
  v_self : forall n, self_ok w n;
  v_pair : forall c s, c <> s -> pair_ok w c s
}.

(** A message is taken. *)
Lemma take_flight w p n m l : w_ch w p n = m :: l -> flight w -> flight (take_msg w p n m l).
Proof.
  intros E [F1 F2 F3 F4 F5 F6].
  assert (Hch : forall a b x, x ∈ w_ch (take_msg w p n m l) a b -> x ∈ w_ch w a b).
  { intros a b x. cbn. unfold upd2. case_bool_decide as Hb; [|done]. destruct Hb as [-> ->]. rewrite E. by right. }
  split; cbn [w_uid take_msg] in *; try (intros; eauto; fail).
  - intros c s Hs. pose proof (F6 c s Hs) as HF. destruct m; try done. unfold upd2. case_bool_decide as Hb; [|done]. destruct Hb as [-> ->]. apply F4. rewrite E. by left.
Qed.
(** An actor does something. *)
Definition after (w : net) (n : N) (s' : astore) (e : list aev) : net :=
  Net (<[n := WNode s' (trace w n ++ e)]> (w_act w)) (fun p d => if bool_decide (p = n) then w_ch w p d ++ sent (w_uid w n) d e else w_ch w p d) (w_uid w).
Lemma sto_after w n s' e m : sto (after w n s' e) m = if decide (m = n) then s' else sto w m.
Proof. unfold sto. cbn. case_decide as E; [subst; by rewrite lookup_insert|by rewrite lookup_insert_ne]. Qed.
Lemma trace_after w n s' e m : trace (after w n s' e) m = if decide (m = n) then trace w n ++ e else trace w m.
Proof. unfold trace. cbn. case_decide as E; [subst; by rewrite lookup_insert|by rewrite lookup_insert_ne]. Qed.
Lemma trace_grows w n s' e m x : x ∈ trace w m -> x ∈ trace (after w n s' e) m.
Proof. rewrite trace_after. case_decide; [subst; rewrite elem_of_app; by left|done]. Qed.
Lemma sent_elem uid d e m : m ∈ sent uid d e <-> exists x, x ∈ e /\ wire uid x = Some (d, m).
Proof.
  unfold sent. rewrite elem_of_list_omap. split.
  - intros (x & Hx & E). exists x. split; [done|]. destruct (wire uid x) as [[d' m']|]; [|done]. case_bool_decide; [|done]. subst. by injection E as ->.
  - intros (x & Hx & E). exists x. split; [done|]. rewrite E. by rewrite bool_decide_true.
Qed.
Lemma krun_pending c st κ st' r e : krun c (st, κ) e = Some (st', Some (CPending r)) -> κ = Some (CPending r) \/ exists p, EvLinkReq c r p ∈ e.
Proof.
  revert st κ. induction e as [|x e IH]; intros st κ; cbn [krun]; [intros [= _ ->]; by left|]. destruct (kstep c (st, κ) x) as [[st1 κ1]|] eqn:E; [|done]. intros H.
  apply IH in H as [->|[p H]]; [|right; exists p; by right].
  destruct x; cbn in E; repeat case_match; simplify_eq; try (by left).
  right. eexists. by left.
Qed.

Section act.
Context (cfg : N -> plug -> list uact) (ra : N) (unl : N -> bool).
Context (w : net) (n : N) (o : aop) (s' : astore) (e : list aev).
Notation s := (sto w n).
Notation tr := (trace w n).
Notation w' := (after w n s' e).
Context (HA : forall m, aok ra (sto w m) (trace w m)) (HE : astep (cfg n) ra (unl n) s o = Ok (s', e)) (HA' : aok ra s' (tr ++ e)).
Context (Hok : Forall (ok_ev o s) e) (Hu : x_uq s' = uq_after o s) (Hends : ends o s -> e <> [] -> rank AShuttingDown <= rank (x_st s')).

Lemma ch_after p d : w_ch w' p d = if decide (p = n) then w_ch w n d ++ sent (w_uid w n) d e else w_ch w p d.
Proof. cbn. case_decide; case_bool_decide; congruence. Qed.
Lemma sto_n : sto w' n = s'.
Proof. by rewrite sto_after, decide_True. Qed.
Lemma sto_ne m : m <> n -> sto w' m = sto w m.
Proof. intros H. by rewrite sto_after, decide_False. Qed.
Lemma ch_n d : w_ch w' n d = w_ch w n d ++ sent (w_uid w n) d e.
Proof. by rewrite ch_after, decide_True. Qed.
Lemma ch_ne p d : p <> n -> w_ch w' p d = w_ch w p d.
Proof. intros H. by rewrite ch_after, decide_False. Qed.
Lemma linking_new a id : lk_of (x_sv s' !! a) = LkIng id -> a ∉ x_uq s'.
Proof.
  intros Hl Hin. destruct (a_fine HA') as [Hd|(_ & (_ & _ & L3 & _) & _)].
  - destruct (aok_gone _ _ _ HA' Hd) as [Hv _]. by rewrite Hv, lookup_empty in Hl.
  - destruct (x_sv s' !! a) as [x|] eqn:E; [|done]. pose proof (L3 _ _ Hin E) as L. by destruct x as [cb []].
Qed.
Lemma uq_same a : o <> OUnlinkReq a -> (a ∈ x_uq s <-> a ∈ x_uq s').
Proof. intros Hn. rewrite Hu. unfold uq_after. destruct o; try done. case_match; [|done]. rewrite elem_of_app, elem_of_list_singleton. split; [by left|]. intros [Hx|Hx]; [done|congruence]. Qed.
Lemma after_flight : flight w -> (forall c r p, o = OLinkReq c r p -> EvLink n p r ∈ trace w c) -> (forall a, o = OUnlinkReq a -> EvUnlinkReq n (w_uid w n a) ∈ trace w a) -> flight w'.
Proof.
  intros [F1 F2 F3 F4 F5 F6] Hreq Hunl. rewrite Forall_forall in Hok.
  assert (Hnew : forall x, x ∈ e -> x ∈ trace w' n) by (intros x Hx; rewrite trace_after, decide_True by done; apply elem_of_app; by right).
  split.
  - intros c d id p. rewrite ch_after. case_decide as Ec; [subst c|by intros ?%F1%(trace_grows _ n s' e)]. rewrite elem_of_app. intros [H|H]; [by apply trace_grows, F1|].
    apply sent_elem in H as (x & Hx & Hw). apply Hnew. destruct x; cbn in Hw; try done. by injection Hw as -> -> ->.
  - intros c d id x. rewrite ch_after. case_decide as Ec; [subst d|intros (p & H)%F2; exists p; by apply trace_grows]. rewrite elem_of_app. intros [H|H]; [apply F2 in H as (p & H); exists p; by apply trace_grows|].
    apply sent_elem in H as (y & Hy & Hw). destruct y; cbn in Hw; try done. injection Hw as -> -> ->. apply Hok in Hy. cbn in Hy.
    destruct Hy as [(_ & _ & Hc)|[p Hp]]; [apply F3 in Hc as [p Hp]|apply Hreq in Hp]; exists p; by apply trace_grows.
  - intros c d r. rewrite sto_after. case_decide as Ed; [subst d|intros (p & H)%F3; exists p; by apply trace_grows]. intros Hc.
    pose proof (step_k _ _ _ _ _ (a_reach (HA n)) (a_reach HA') c) as Hk. rewrite Hc in Hk. apply krun_pending in Hk as [Hk|[p Hk]]; [apply F3 in Hk as [p Hk]; exists p; by apply trace_grows|].
    apply Hok in Hk. cbn in Hk. exists p. apply trace_grows. by apply Hreq.
  - intros c d k. rewrite ch_after. case_decide as Ec; [subst d|by intros ?%F4%(trace_grows _ n s' e)]. rewrite elem_of_app. intros [H|H]; [by apply trace_grows, F4|].
    apply sent_elem in H as (x & Hx & Hw). apply Hnew. destruct x; cbn in Hw; try done. by injection Hw as -> ->.
  - intros c d k. rewrite ch_after. case_decide as Ec; [subst c|by intros ?%F5%(trace_grows _ n s' e)]. rewrite elem_of_app. intros [H|H]; [by apply trace_grows, F5|].
    apply sent_elem in H as (x & Hx & Hw). destruct x; cbn in Hw; try done. injection Hw as -> <-. apply Hok in Hx. apply trace_grows. destruct Hx as [[Hx|Hx] _]; [by apply F6|by apply Hunl].
  - intros c d. rewrite sto_after. case_decide as Ec; [subst c|intros ?; apply trace_grows; by apply F6]. cbn [w_uid after]. intros Hd. apply trace_grows.
    rewrite Hu in Hd. unfold uq_after in Hd. clear HE Hok Hends. destruct o; try (by apply F6). case_match; [|by apply F6]. apply elem_of_app in Hd as [Hd|Hd]; [by apply F6|]. apply elem_of_list_singleton in Hd. subst. by apply Hunl.
Qed.
Lemma off_after c : off w c -> off w' c.
Proof. unfold off. rewrite sto_after. case_decide as E; [|done]. subst c. intros H. pose proof (state_mono _ _ _ _ _ (a_reach (HA n)) (a_reach HA')). lia. Qed.
Lemma after_client a : a <> n -> o <> OUnlinkReq a -> (forall id r, o = OResp id r -> x_pend s !! id <> Some (QLink a)) -> pair_ok w n a -> pair_ok w' n a.
Proof.
  intros Ha H1 H2 HP. unfold pair_ok in *. rewrite ch_n, sto_n, (sto_ne a), (ch_ne a), up_app by done. cbn [w_uid after].
  pose proof (off_after n) as Hoff. pose proof (uq_same a H1) as Hq.
  destruct (client_step _ _ _ _ _ _ (a_reach (HA n)) (a_reach HA') Hok (w_uid w n) a H1 H2) as [(E1 & E2)|[(E1 & E2 & p & id & E3 & E4 & _)|[(E1 & E2 & E3 & E4)|(E1 & E2 & E3 & E4)]]].
  - rewrite E1, E2, app_nil_r. by eapply pinv_same.
  - rewrite E3, E4. eapply pinv_link; [exact HP|exact E1|unfold off; lia|exact Hq|by eapply linking_new].
  - rewrite E2, E3. eapply pinv_leave; [exact HP|done|]. unfold off. rewrite sto_n. apply Hends; [done|]. by intros ->.
  - rewrite E2, E3. eapply pinv_reply; [exact HP|done|done|by apply Hq].
Qed.
Lemma after_server c : c <> n -> (forall r p, o <> OLinkReq c r p) -> o <> OUnlinkNotify c -> (forall id r, o = OResp id r -> x_pend s !! id <> Some (QUnlink c)) -> pair_ok w c n -> pair_ok w' c n.
Proof.
  intros Hc H1 H2 H3 HP. unfold pair_ok in *. unfold off in *. rewrite ch_n, sto_n, (sto_ne c), (ch_ne c), dn_app by done. cbn [w_uid after].
  destruct (server_step _ _ _ _ _ _ (a_reach (HA n)) (a_reach HA') Hok (w_uid w n) c H1 H2 H3) as [(E1 & E2)|[(r & E1 & E2 & E3)|(id & E1 & E2 & E3 & _)]].
  - by rewrite E1, E2, app_nil_r.
  - rewrite E2, E3. by eapply pinv_start.
  - rewrite E2, E3. by eapply pinv_ask.
Qed.
Lemma after_other c d : c <> n -> d <> n -> pair_ok w c d -> pair_ok w' c d.
Proof. intros Hc Hd. unfold pair_ok, off. rewrite !ch_ne, !sto_ne by done. done. Qed.
Lemma after_self : (forall m, self_ok w m) -> Forall (fun x => itself n x = false) e -> (forall r p, o <> OLinkReq n r p) -> o <> OUnlinkNotify n -> o <> OUnlinkReq n ->
  (forall id r, o = OResp id r -> x_pend s !! id <> Some (QLink n) /\ x_pend s !! id <> Some (QUnlink n)) -> forall m, self_ok w' m.
Proof.
  intros HS Hi H1 H2 H3 H4 m. unfold self_ok. destruct (decide (m = n)) as [->|Hm]; [|rewrite sto_ne, ch_ne by done; apply HS]. rewrite sto_n, ch_n. destruct (HS n) as (S1 & S2 & S3). rewrite S3.
  assert (EU : up (sent (w_uid w n) n e) = [] /\ x_sv s' !! n = None).
  { destruct (client_step _ _ _ _ _ _ (a_reach (HA n)) (a_reach HA') Hok (w_uid w n) n H3) as [(E1 & E2)|[(_ & _ & p & id & _ & _ & E3)|[(E1 & _)|(E1 & _)]]].
    - intros id r E. by apply (H4 id r).
    - rewrite S1 in E1. split; [done|]. by destruct (x_sv s' !! n) as [[? []]|].
    - rewrite Forall_forall in Hi. apply Hi in E3. cbn in E3. by rewrite bool_decide_true in E3.
    - by rewrite S1 in E1.
    - by rewrite S1 in E1. }
  assert (ED : dn (sent (w_uid w n) n e) = [] /\ x_cl s' !! n = None).
  { destruct (server_step _ _ _ _ _ _ (a_reach (HA n)) (a_reach HA') Hok (w_uid w n) n H1 H2) as [(E1 & E2)|[(r & E1 & _)|(id & E1 & _)]]; [intros id r E; by apply (H4 id r)|split; congruence|congruence..]. }
  destruct EU as [EU ?], ED as [ED ?]. split_and!; [done..|]. cbn. destruct (sent (w_uid w n) n e) as [|m l] eqn:E; [done|]. exfalso.
  unfold up, dn in *. rewrite filter_cons in EU, ED. destruct (is_up m); cbn in EU, ED; done.
Qed.
End act.
