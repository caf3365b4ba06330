(** What the events of an actor say about one server, or one client, of it. *)
From stdpp Require Import base list gmap.
From Verif Require Import Base Prog ActorModel ActorSpec ActorMoves ActorReach ActorProofs ActorSafeSpec ActorSafe ActorSteps NetModel NetSpec NetLocal.
Open Scope N_scope.
Local Open Scope prog_scope.

(** ** A server, as its client sees it *)
Inductive lk := LkNo | LkIng (id : N) | LkUp.
Definition lk_of (x : option srec) : lk :=
  match x with None => LkNo | Some (SRec _ (SLinking id)) => LkIng id | Some (SRec _ SOperational) => LkUp end.
Definition lk_some (σ : lk) (v : lk) : option lk := match σ with LkNo => None | _ => Some v end.
Definition cstep (a : N) (σ : lk) (x : aev) : option lk :=
  match x with
  | EvLink b _ id => if decide (b = a) then match σ with LkNo => Some (LkIng id) | _ => None end else Some σ
  | EvLinkResp b ok => if decide (b = a) then lk_some σ (if ok then LkUp else LkNo) else Some σ
  | EvNotify b | EvUnlinkReply b => if decide (b = a) then lk_some σ LkNo else Some σ
  | _ => Some σ
  end.
Fixpoint crun (a : N) (σ : lk) (e : list aev) : option lk :=
  match e with [] => Some σ | x :: r => match cstep a σ x with Some σ' => crun a σ' r | None => None end end.
Lemma crun_app a σ e1 e2 : crun a σ (e1 ++ e2) = match crun a σ e1 with Some σ' => crun a σ' e2 | None => None end.
Proof. revert σ. induction e1 as [|x e1 IH]; intros σ; cbn; [done|]. destruct (cstep a σ x); [apply IH|done]. Qed.
Definition client_ev (x : aev) : bool := match x with EvLink _ _ _ | EvLinkResp _ _ | EvNotify _ | EvUnlinkReply _ => true | _ => false end.
Lemma crun_other a σ e : Forall (fun x => client_ev x = false) e -> crun a σ e = Some σ.
Proof. induction 1 as [|x e Hx _ IH]; cbn; [done|]. by destruct x. Qed.
Lemma lk_of_some x : is_Some x -> lk_of x <> LkNo.
Proof. intros [[? [?|]] ->]; done. Qed.
Lemma lk_some_eq x v : is_Some x -> lk_some (lk_of x) v = Some v.
Proof. intros [[? [?|]] ->]; done. Qed.
Ltac crest := apply crun_other; repeat first [apply Forall_app_2|case_match|constructor]; done.
Lemma reach_lk D a s ev : reach D s ev -> crun a LkNo ev = Some (lk_of (x_sv s !! a)).
Proof.
  apply (reach_inv D (fun s ev => crun a LkNo ev = Some (lk_of (x_sv s !! a)))); [done|]. clear s ev. intros s ev e s' _ H Hm. rewrite crun_app, H.
  destruct Hm; try crest; cbn [crun cstep].
  all: try (case_decide; [subst|]); psimpl; rewrite ?lookup_insert, ?lookup_delete, ?lookup_insert_ne, ?lookup_delete_ne by done; try done.
  - by rewrite H0.
  - by rewrite lk_some_eq.
  - by rewrite lk_some_eq.
  - by rewrite lk_some_eq.
  - by rewrite lk_some_eq.
  - apply crun_other, Forall_forall. intros x Hx. by apply H2 in Hx as (n & -> & _).
  - by destruct b.
  - by destruct b.
Qed.

(** ** A client, as its server sees it; and the state of the server *)
Definition kstep (c : N) (k : astate * option cstate) (x : aev) : option (astate * option cstate) :=
  let '(st, κ) := k in
  match x with
  | EvState o n => if decide (o = st /\ rank o < rank n) then Some (n, κ) else None
  | EvLinkReq b r o => if decide (b = c) then Some (st, if rank AOperational <? rank st then κ else match κ with Some _ => κ | None => if o && (rank st <? rank AOperational) then Some (CPending r) else None end) else Some k
  | EvLinkAns b r LOk => if decide (b = c) then match κ with None => Some (st, Some COperational) | Some (CPending q) => if decide (q = r) then Some (st, Some COperational) else None | _ => None end else Some k
  | EvUnlinkReq b id => if decide (b = c) then match κ with Some COperational => Some (st, Some (CUnlinking id)) | _ => None end else Some k
  | EvGotNotify b => if decide (b = c) then Some (st, None) else Some k
  | EvUnlinkOk b => if decide (b = c) then match κ with Some _ => Some (st, None) | None => None end else Some k
  | _ => Some k
  end.
Fixpoint krun (c : N) (k : astate * option cstate) (e : list aev) : option (astate * option cstate) :=
  match e with [] => Some k | x :: r => match kstep c k x with Some k' => krun c k' r | None => None end end.
Lemma krun_app c k e1 e2 : krun c k (e1 ++ e2) = match krun c k e1 with Some k' => krun c k' e2 | None => None end.
Proof. revert k. induction e1 as [|x e1 IH]; intros k; cbn; [done|]. destruct (kstep c k x); [apply IH|done]. Qed.
Definition server_ev (x : aev) : bool := match x with EvState _ _ | EvLinkReq _ _ _ | EvLinkAns _ _ LOk | EvUnlinkReq _ _ | EvGotNotify _ | EvUnlinkOk _ => true | _ => false end.
Lemma krun_other c k e : Forall (fun x => server_ev x = false) e -> krun c k e = Some k.
Proof. destruct k as [st κ]. induction 1 as [|x e Hx _ IH]; cbn; [done|]. destruct x; try done. by destruct x. Qed.
Ltac krest := apply krun_other; repeat first [apply Forall_app_2|case_match|constructor]; done.
Lemma reach_k D c s ev : reach D s ev -> krun c (AInitializing, None) ev = Some (x_st s, x_cl s !! c).
Proof.
  apply (reach_inv D (fun s ev => krun c (AInitializing, None) ev = Some (x_st s, x_cl s !! c))); [done|]. clear s ev. intros s ev e s' _ H Hm. rewrite krun_app, H.
  destruct Hm; try (destruct (b : bool); krest); try krest; cbn [krun kstep].
  all: try (case_decide; [subst|]); psimpl; rewrite ?lookup_insert, ?lookup_delete, ?lookup_insert_ne, ?lookup_delete_ne by done; try done.
  - apply krun_other, Forall_forall. intros x Hx. by apply H2 in Hx as (n & -> & _).
  - by destruct H1.
  - rewrite H1. by rewrite decide_True.
  - by destruct H3.
  - cbn [kstep]. apply N.ltb_lt in H0. by rewrite H0.
  - cbn [kstep]. apply N.ltb_ge in H0. rewrite H0. by destruct H1 as [? ->].
  - rewrite H1. apply N.ltb_lt in H0 as H0'. rewrite H0'. apply N.lt_le_incl, N.ltb_ge in H0. by rewrite H0.
  - cbn [kstep]. rewrite decide_True by done. apply N.ltb_ge in H0. rewrite H0, H2. destruct o; cbn; [|done]. by rewrite H1.
  - cbn [kstep]. by rewrite decide_False.
  - by rewrite H0.
  - by rewrite H0.
  - by destruct H0 as [? ->].
  - by destruct H1.
  - destruct (x_sreq s); cbn; rewrite decide_True; done.
Qed.

(** ** Requests *)
Definition req_ev (x : aev) : option (N * query) :=
  match x with
  | EvLink a _ id => Some (id, QLink a)
  | EvReg n id => Some (id, QReg n)
  | EvDisc n id | EvPromise n id => Some (id, QDisc n)
  | EvUnlinkReq c id => Some (id, QUnlink c)
  | _ => None
  end.
Definition reqs (e : list aev) : list (N * query) := omap req_ev e.
Definition inv_reqs (s : astore) (ev : list aev) : Prop :=
  (forall id q, (id, q) ∈ reqs ev -> id < x_next s) /\
  (forall id q q', (id, q) ∈ reqs ev -> (id, q') ∈ reqs ev -> q = q') /\
  (forall id q, x_pend s !! id = Some q -> (id, q) ∈ reqs ev).
Lemma reqs_app e1 e2 : reqs (e1 ++ e2) = reqs e1 ++ reqs e2.
Proof. apply omap_app. Qed.
Lemma reqs_none e : Forall (fun x => req_ev x = None) e -> reqs e = [].
Proof. unfold reqs. induction 1 as [|x e Hx _ IH]; cbn; [done|]. by rewrite Hx. Qed.
Lemma inv_reqs_old s s' ev e : inv_reqs s ev -> reqs e = [] -> x_next s' = x_next s -> (forall id q, x_pend s' !! id = Some q -> x_pend s !! id = Some q) -> inv_reqs s' (ev ++ e).
Proof. intros (H1 & H2 & H3) He Hn Hp. unfold inv_reqs. rewrite reqs_app, He, app_nil_r, Hn. split_and!; eauto. Qed.
Lemma inv_reqs_new s s' ev e q : inv_reqs s ev -> reqs e = [(x_next s, q)] -> x_next s' = x_next s + 1 -> x_pend s' = <[x_next s := q]> (x_pend s) -> inv_reqs s' (ev ++ e).
Proof.
  intros (H1 & H2 & H3) He Hn Hp. unfold inv_reqs. rewrite reqs_app, He, Hn, Hp. split_and!.
  - intros id q'. rewrite elem_of_app, elem_of_list_singleton. intros [H|[= -> _]]; [apply H1 in H|]; lia.
  - intros id q1 q2. rewrite !elem_of_app, !elem_of_list_singleton. intros [E1|E1] [E2|E2]; [by eapply H2|..].
    + injection E2 as -> _. apply H1 in E1. lia.
    + injection E1 as -> _. apply H1 in E2. lia.
    + congruence.
  - intros id q'. rewrite lookup_insert_Some, elem_of_app, elem_of_list_singleton. intros [[<- <-]|[_ H]]; [by right|left; by apply H3].
Qed.
Lemma reach_reqs D s ev : reach D s ev -> inv_reqs s ev.
Proof.
  apply (reach_inv D inv_reqs).
  { split_and!; cbn; try (intros; set_solver). }
  clear s ev. intros s ev e s' _ H Hm.
  destruct Hm; try (eapply (inv_reqs_new s); [exact H|reflexivity|reflexivity|reflexivity]).
  all: try (eapply (inv_reqs_old s); [exact H|apply reqs_none; repeat first [apply Forall_app_2|case_match|constructor]; done|done|try done]).
  - by destruct d; eapply (inv_reqs_new s).
  - eapply (inv_reqs_old s); [exact H|apply reqs_none, Forall_forall|done|done]. intros x Hx. by apply H2 in Hx as (n & -> & _).
  - destruct b; by eapply (inv_reqs_old s).
  - destruct b; by eapply (inv_reqs_old s).
  - intros i q. cbn. by intros [_ ?]%lookup_delete_Some.
  - intros i p. cbn. by intros [_ ?]%lookup_delete_Some.
Qed.

(** ** The end of the links to servers *)
Definition late_link (ev : list aev) : Prop := exists t1 a o id t2, ev = t1 ++ EvLink a o id :: t2 /\ rank AShuttingDown <= rank (state_of t1).
Lemma late_link_app ev e : late_link ev -> late_link (ev ++ e).
Proof. intros (t1 & a & o & id & t2 & -> & H). exists t1, a, o, id, (t2 ++ e). by rewrite <- (assoc_L (++)). Qed.
Definition inv_sv (s : astore) (ev : list aev) : Prop := x_d s PLc = false -> x_sv s = ∅ \/ late_link ev.
Lemma reach_sv D s ev : reach D s ev -> inv_sv s ev.
Proof.
  apply (reach_inv D inv_sv); [done|]. clear s ev. intros s ev e s' HR H Hm.
  assert (Hs : x_d s' PLc = x_d s PLc -> (x_sv s = ∅ -> x_sv s' = ∅) -> inv_sv s' (ev ++ e)).
  { intros E1 E2 Hd. rewrite E1 in Hd. destruct (H Hd) as [?|?]; [left; auto|right; by apply late_link_app]. }
  destruct Hm; try (apply Hs; [reflexivity|done]); try (apply Hs; [reflexivity|]; cbn; intros E; rewrite ?E in *; try apply delete_empty; by destruct H0).
  - intros Hd. right. exists ev, a, o, (x_next s), []. split; [done|]. rewrite <- (reach_state _ _ _ HR). destruct (reach_down _ _ _ HR) as [I1 _]. apply (I1 PLc); [cbn; set_solver|done].
  - apply Hs; [|done]. cbn. destruct (_ && _); [by rewrite updp_ne|done].
  - destruct b; apply Hs; done.
  - destruct b; [|apply Hs; done]. intros Hd. cbn in *. destruct (decide (p = PLc)) as [->|Hp]; [|rewrite updp_ne in Hd by done; destruct (H Hd); [by left|right; by apply late_link_app]].
    left. cbn in H1. by apply bool_decide_eq_true in H1.
Qed.
Lemma reach_dead D s ev : reach D s ev -> x_st s = AShutDown -> x_d s PLc = false /\ x_d s PLs = false.
Proof.
  apply (reach_inv D (fun s ev => x_st s = AShutDown -> x_d s PLc = false /\ x_d s PLs = false)); [done|]. clear s ev. intros s ev e s' HR H Hm.
  destruct Hm; try exact H; try done; cbn [x_st x_d w_st w_d w_i w_res w_pend w_sreq w_ireq w_req w_next].
  - intros E. destruct (_ && _); [|auto]. rewrite !updp_ne by done. auto.
  - by destruct b.
  - destruct b; [|done]. cbn. intros E. congruence.
  - intros _. split; apply H1; cbn; set_solver.
Qed.
Lemma reach_gone D s ev : reach D s ev -> ~ late_link ev -> x_st s = AShutDown -> x_sv s = ∅ /\ x_cl s = ∅.
Proof.
  intros HR HN Hs. destruct (reach_dead _ _ _ HR Hs) as [H1 H2]. split.
  - by destruct (reach_sv _ _ _ HR H1).
  - by apply (reach_down _ _ _ HR).
Qed.
Lemma reach_alone D s ev : reach D s ev -> (forall c r p, EvLinkReq c r p ∉ ev) -> x_cl s = ∅.
Proof.
  apply (reach_inv D (fun s ev => (forall c r p, EvLinkReq c r p ∉ ev) -> x_cl s = ∅)); [done|]. clear s ev. intros s ev e s' _ H Hm Hn.
  assert (H0 : x_cl s = ∅) by (apply H; intros c r p Hc; apply (Hn c r p), elem_of_app; by left).
  assert (He : forall c r p, EvLinkReq c r p ∉ e) by (intros c r p Hc; apply (Hn c r p), elem_of_app; by right). clear H Hn.
  destruct Hm; try exact H0; psimpl; rewrite ?H0 in *; try (by rewrite ?delete_empty, ?lookup_empty in * ); try (by destruct b).
  - by destruct (He c r true); left.
  - by destruct (He c r o); left.
Qed.

(** ** What must happen *)
Section must.
Context (cfg : plug -> list uact) (ra : N) (unl : bool).
Lemma link_resp_must id a r s s' e : x_st s <> AShutDown -> x_pend s !! id = Some (QLink a) -> astep cfg ra unl s (OResp id r) = Ok (s', e) ->
  EvLinkResp a (match r with RpErr => false | _ => true end) ∈ e.
Proof.
  intros Hst Hq. apply (wp_step (aprog cfg ra unl (OResp id r)) (fun _ _ e => EvLinkResp a (match r with RpErr => false | _ => true end) ∈ e)).
  unfold aprog. wps; [by apply bool_decide_eq_true in Heqb|]. cbn [astep_live]. wps. rewrite Hq. wps. cbn [respond]. unfold on_link_response. wps. cbn [x_sv w_pend].
  destruct (x_sv s !! a) as [x|]; [|by wps]. apply wp_bnd. set (b := match r with RpErr => false | _ => true end).
  assert (wp false (when (negb b) (emit (EvLinkResp a false) ;; modify (fun s => w_sv s (delete a (x_sv s))))) (fun _ _ ev => b = false -> EvLinkResp a b ∈ ev) (w_pend s (delete id (x_pend s))) []) as Hw.
  { destruct b; cbn [negb]; wps; try done. intros _. by left. }
  eapply wp_mono; [exact Hw|]. clear Hw. cbv beta. intros [] s1 ev1 H1. clearbody b. destruct b.
  - eapply wp_call; [apply wp_true|]. intros [] s2 ev2 _. wps; [|apply snoc_elem]. apply wp_elem, snoc_elem.
  - apply wp_elem. auto.
Qed.
Lemma unlink_ok_must id c r s s' e : x_st s <> AShutDown -> x_pend s !! id = Some (QUnlink c) -> r <> RpErr -> astep cfg ra unl s (OResp id r) = Ok (s', e) -> EvUnlinkOk c ∈ e.
Proof.
  intros Hst Hq Hr. apply (wp_step (aprog cfg ra unl (OResp id r)) (fun _ _ e => EvUnlinkOk c ∈ e)).
  unfold aprog. wps; [by apply bool_decide_eq_true in Heqb|]. cbn [astep_live]. wps. rewrite Hq. wps. cbn [respond]. unfold on_unlink_response. wps.
  - by destruct r.
  - apply wp_elem, snoc_elem.
Qed.
Lemma notify_must c s s' e : x_st s <> AShutDown -> astep cfg ra unl s (OUnlinkNotify c) = Ok (s', e) -> EvGotNotify c ∈ e.
Proof.
  intros Hst. apply (wp_step (aprog cfg ra unl (OUnlinkNotify c)) (fun _ _ e => EvGotNotify c ∈ e)).
  unfold aprog. wps; [by apply bool_decide_eq_true in Heqb|]. cbn [astep_live]. unfold on_unlink_notify. wps. apply wp_elem. by left.
Qed.
Lemma forget_all_must a l s ev : a ∈ l -> is_Some (x_sv s !! a) -> wp false (forget_all unl l) (fun _ _ e => EvUnlinkReply a ∈ e) s ev.
Proof.
  revert s ev. induction l as [|b l IH]; intros s ev Ha Hs; [by apply elem_of_nil in Ha|]. cbn [forget_all]. unfold forget_one. wps.
  destruct (decide (b = a)) as [->|Hn].
  - destruct Hs as [x Hx]. rewrite Hx. wps. apply wp_elem, snoc_elem.
  - apply elem_of_cons in Ha as [?|Ha]; [congruence|]. destruct (x_sv s !! b); wps; (wp_use (apply IH; [done|cbn; by rewrite ?lookup_delete_ne])); intros c s1 ev1 H1; by wps.
Qed.
Lemma reply_must a s s' e : x_st s <> AShutDown -> is_Some (x_sv s !! a) -> x_cl s = ∅ -> astep cfg ra unl s (OUnlinkReq a) = Ok (s', e) -> EvUnlinkReply a ∈ e.
Proof.
  intros Hst Hs Hc. apply (wp_step (aprog cfg ra unl (OUnlinkReq a)) (fun _ _ e => EvUnlinkReply a ∈ e)).
  unfold aprog. wps; [by apply bool_decide_eq_true in Heqb|]. cbn [astep_live]. unfold forget_link. wps. pose proof Hs as [x Hx]. rewrite Hx. wps. unfold forget_links. wps; [|by apply bool_decide_eq_false in Heqb0..].
  wp_use (apply (forget_all_must a); [apply elem_of_app; right; by left|done]). intros b s1 ev1 H1. by apply wp_elem.
Qed.
End must.
