(** One step of an actor, as one of its servers or clients sees it. *)
From stdpp Require Import base list gmap.
From Verif Require Import Base Prog ActorModel ActorSpec ActorMoves ActorReach ActorProofs ActorSafeSpec ActorSafe ActorSteps NetModel NetSpec NetLocal NetViews.
Open Scope N_scope.

Definition is_up (m : wmsg) : bool := match m with WLinkReq _ _ | WNotify | WUnlinkRep _ => true | _ => false end.
Definition up (l : list wmsg) : list wmsg := filter (fun m => is_up m = true) l.
Definition dn (l : list wmsg) : list wmsg := filter (fun m => is_up m = false) l.
Lemma up_app l1 l2 : up (l1 ++ l2) = up l1 ++ up l2.
Proof. apply filter_app. Qed.
Lemma dn_app l1 l2 : dn (l1 ++ l2) = dn l1 ++ dn l2.
Proof. apply filter_app. Qed.
Lemma sent_cons uid d x e : sent uid d (x :: e) = match wire uid x with Some (d', m) => if bool_decide (d' = d) then m :: sent uid d e else sent uid d e | None => sent uid d e end.
Proof. unfold sent. cbn. destruct (wire uid x) as [[d' m]|]; [|done]. by case_bool_decide. Qed.

(** ** To a server *)
Definition about (a : N) (x : aev) : bool :=
  match x with EvLink b _ _ | EvLinkResp b _ | EvNotify b | EvUnlinkReply b => bool_decide (b = a) | _ => false end.
Definition abt (a : N) (e : list aev) : list aev := filter (fun x => about a x = true) e.
Lemma crun_abt a σ e : crun a σ (abt a e) = crun a σ e.
Proof.
  revert σ. unfold abt. induction e as [|x e IH]; intros σ; [done|]. destruct (about a x) eqn:E.
  - rewrite filter_cons_True by done. cbn. by destruct (cstep a σ x).
  - rewrite filter_cons_False by congruence. rewrite IH. cbn. destruct x; cbn in *; try done; apply bool_decide_eq_false in E; by rewrite decide_False.
Qed.
Lemma up_abt uid a e : up (sent uid a (abt a e)) = up (sent uid a e).
Proof.
  unfold abt. induction e as [|x e IH]; [done|]. destruct (about a x) eqn:E.
  - rewrite filter_cons_True by done. rewrite !sent_cons. destruct (wire uid x) as [[d m]|]; [|done]. case_bool_decide; [|done]. unfold up in *. rewrite !filter_cons, IH. done.
  - rewrite filter_cons_False by congruence. rewrite sent_cons, IH. destruct x; cbn in *; try done; try (rewrite E; done); case_bool_decide; done.
Qed.
Lemma abt_elem a e x : x ∈ abt a e <-> about a x = true /\ x ∈ e.
Proof. apply (elem_of_list_filter (fun x => about a x = true)). Qed.
Ltac about_cases x H := destruct x; cbn in H; try discriminate; apply bool_decide_eq_true in H; subst.

Lemma c_starts uid a σ σ' e : crun a σ e = Some σ' -> (forall b, EvLinkResp a b ∉ e) -> EvNotify a ∉ e -> EvUnlinkReply a ∉ e ->
  (σ' = σ /\ up (sent uid a e) = [] /\ forall o id, EvLink a o id ∉ e) \/
  (σ = LkNo /\ exists o id, σ' = LkIng id /\ up (sent uid a e) = [WLinkReq id o] /\ EvLink a o id ∈ e).
Proof.
  rewrite <- crun_abt, <- up_abt. intros Hc H1 H2 H3. assert (Hall : forall x, x ∈ abt a e -> exists o id, x = EvLink a o id).
  { intros x [Hx Hin]%abt_elem. about_cases x Hx; first [exfalso; first [eapply H1; eassumption|eapply H2; eassumption|eapply H3; eassumption]|by eexists _, _|by left|by right]. }
  assert (Hin : forall o id, EvLink a o id ∈ e -> EvLink a o id ∈ abt a e) by (intros o id H; apply abt_elem; cbn; by rewrite bool_decide_true).
  assert (Hin' : forall x, x ∈ abt a e -> x ∈ e) by (intros x [_ H]%abt_elem; done).
  revert Hc Hall Hin Hin'. generalize (abt a e). intros l Hc Hall Hin Hin'. destruct l as [|x [|y l]].
  - left. cbn in *. split_and!; [congruence|done|]. intros o id H. apply Hin in H. by apply elem_of_nil in H.
  - right. destruct (Hall x) as (o & id & ->); [by left|]. cbn in Hc. rewrite decide_True in Hc by done. destruct σ; try done. injection Hc as <-.
    split; [done|]. exists o, id. split_and!; [done| |apply Hin'; by left]. rewrite sent_cons. cbn. by rewrite bool_decide_true.
  - exfalso. destruct (Hall x) as (o & id & ->); [by left|]. destruct (Hall y) as (o' & id' & ->); [right; by left|]. cbn in Hc. rewrite decide_True in Hc by done. destruct σ; try done. cbn in Hc. by rewrite decide_True in Hc.
Qed.
Lemma c_quits uid a σ σ' e : crun a σ e = Some σ' -> (forall b, EvLinkResp a b ∉ e) -> (forall o id, EvLink a o id ∉ e) ->
  (σ' = σ /\ up (sent uid a e) = [] /\ EvUnlinkReply a ∉ e /\ EvNotify a ∉ e) \/
  (σ <> LkNo /\ σ' = LkNo /\ (up (sent uid a e) = [WNotify] /\ EvNotify a ∈ e \/ up (sent uid a e) = [WUnlinkRep (uid a)] /\ EvUnlinkReply a ∈ e)).
Proof.
  rewrite <- crun_abt, <- up_abt. intros Hc H1 H2. assert (Hall : forall x, x ∈ abt a e -> x = EvNotify a \/ x = EvUnlinkReply a).
  { intros x [Hx Hin]%abt_elem. about_cases x Hx; first [exfalso; first [eapply H1; eassumption|eapply H2; eassumption|eapply H3; eassumption]|by eexists _, _|by left|by right]. }
  assert (Hin : forall x, x = EvNotify a \/ x = EvUnlinkReply a -> x ∈ e -> x ∈ abt a e) by (intros x [-> | ->] H; apply abt_elem; cbn; by rewrite bool_decide_true).
  assert (Hin' : forall x, x ∈ abt a e -> x ∈ e) by (intros x [_ H]%abt_elem; done).
  revert Hc Hall Hin Hin'. generalize (abt a e). intros l Hc Hall Hin Hin'. destruct l as [|x [|y l]].
  - left. cbn in *. split_and!; [congruence|done| |]; intros H; apply Hin in H; auto; by apply elem_of_nil in H.
  - right. specialize (Hin' x ltac:(by left)). destruct (Hall x) as [-> | ->]; [by left|..]; cbn in Hc; rewrite decide_True in Hc by done; destruct σ; cbn in Hc; try done; injection Hc as <-; (split_and!; [done|done|]).
    1-2: left. 3-4: right. all: split; [|done]; rewrite sent_cons; cbn; by rewrite bool_decide_true.
  - exfalso. destruct (Hall x) as [-> | ->]; [by left|..]; (destruct (Hall y) as [-> | ->]; [right; by left|..]); cbn in Hc; rewrite decide_True in Hc by done; destruct σ; cbn in Hc; try done; by rewrite decide_True in Hc.
Qed.
Lemma c_answers uid a σ σ' e b : crun a σ e = Some σ' -> σ <> LkNo -> (forall b', EvLinkResp a b' ∈ e -> b' = b) -> EvLinkResp a b ∈ e ->
  (b = false -> forall o id, EvLink a o id ∉ e) -> EvNotify a ∉ e -> EvUnlinkReply a ∉ e ->
  up (sent uid a e) = [] /\ σ' = (if b then LkUp else LkNo) /\ forall o id, EvLink a o id ∉ e.
Proof.
  rewrite <- crun_abt, <- up_abt. intros Hc Hσ HL Hb HN H2 H3.
  assert (Hall : forall x, x ∈ abt a e -> x = EvLinkResp a b \/ b = true /\ exists o id, x = EvLink a o id).
  { intros x [Hx Hin]%abt_elem. about_cases x Hx; try (exfalso; first [by apply H2|by apply H3]).
    - right. destruct b; [eauto|]. exfalso. by eapply HN.
    - left. f_equal. auto. }
  assert (Hne : EvLinkResp a b ∈ abt a e) by (apply abt_elem; split; [cbn; by rewrite bool_decide_true|done]).
  assert (Hin : forall o id, EvLink a o id ∈ e -> EvLink a o id ∈ abt a e) by (intros o id H; apply abt_elem; cbn; by rewrite bool_decide_true).
  cut (up (sent uid a (abt a e)) = [] /\ σ' = (if b then LkUp else LkNo) /\ forall o id, EvLink a o id ∉ abt a e).
  { intros (E1 & E2 & E3). split_and!; [done..|]. intros o id H. by eapply E3, Hin. }
  clear Hin. revert Hc Hall Hne. generalize (abt a e). intros l. clear HL Hb HN H2 H3 e. revert σ Hσ. induction l as [|x l IH]; intros σ Hσ Hc Hall Hne; [by apply elem_of_nil in Hne|].
  destruct (Hall x) as [-> |(-> & o & id & ->)]; [by left| |cbn in Hc; rewrite decide_True in Hc by done; by destruct σ].
  cbn in Hc. rewrite decide_True in Hc by done. assert (Hc' : crun a (if b then LkUp else LkNo) l = Some σ') by (destruct σ; done). clear Hc.
  rewrite sent_cons. cbn [wire]. destruct l as [|y l].
  - cbn in Hc'. split_and!; [done|congruence|]. intros o id H. by apply elem_of_list_singleton in H.
  - destruct b.
    + destruct (IH LkUp) as (E1 & E2 & E3); [done|done|intros z Hz; apply Hall; by right| |].
      { destruct (Hall y) as [-> |(_ & o & id & ->)]; [right; by left|by left|]. cbn in Hc'. by rewrite decide_True in Hc'. }
      split_and!; [done..|]. intros o id H. apply elem_of_cons in H as [?|H]; [done|]. by eapply E3.
    + exfalso. destruct (Hall y) as [-> |(? & _)]; [right; by left| |done]. cbn in Hc'. by rewrite decide_True in Hc'.
Qed.

(** ** To a client *)
Definition kabout (c : N) (x : aev) : bool :=
  match x with EvLinkAns b _ _ | EvUnlinkReq b _ | EvGotNotify b | EvUnlinkOk b => bool_decide (b = c) | _ => false end.
Definition kabt (c : N) (e : list aev) : list aev := filter (fun x => kabout c x = true) e.
Definition kstep1 (κ : option cstate) (x : aev) : option (option cstate) :=
  match x with
  | EvLinkAns _ r LOk => match κ with None => Some (Some COperational) | Some (CPending q) => if decide (q = r) then Some (Some COperational) else None | _ => None end
  | EvUnlinkReq _ id => match κ with Some COperational => Some (Some (CUnlinking id)) | _ => None end
  | EvGotNotify _ => Some None
  | EvUnlinkOk _ => match κ with Some _ => Some None | None => None end
  | _ => Some κ
  end.
Fixpoint krun1 (κ : option cstate) (e : list aev) : option (option cstate) :=
  match e with [] => Some κ | x :: r => match kstep1 κ x with Some κ' => krun1 κ' r | None => None end end.
Lemma krun_kabt c st κ st' κ' e : krun c (st, κ) e = Some (st', κ') -> (forall r o, EvLinkReq c r o ∉ e) -> krun1 κ (kabt c e) = Some κ'.
Proof.
  revert st κ. unfold kabt. induction e as [|x e IH]; intros st κ; [cbn; congruence|]. intros Hk Hn.
  assert (Hn' : forall r o, EvLinkReq c r o ∉ e) by (intros r o H; apply (Hn r o); by right).
  cbn [krun] in Hk. destruct (kabout c x) eqn:E.
  - rewrite filter_cons_True by done. destruct x; cbn in E; try discriminate; apply bool_decide_eq_true in E as ->; cbn in Hk |- *; rewrite ?decide_True in Hk by done.
    + destruct κ as [[]|]; try done; by eapply IH.
    + destruct x; try (by eapply IH). destruct κ as [[q| |]|]; try done; [|by eapply IH]. destruct (decide (q = r)); [by eapply IH|done].
    + by eapply IH.
    + destruct κ as [[]|]; try done; by eapply IH.
  - rewrite filter_cons_False by congruence. destruct x; cbn in E, Hk; try (by eapply IH); try (apply bool_decide_eq_false in E).
    + rewrite decide_False in Hk by done. by eapply IH.
    + destruct x; try (by eapply IH). rewrite decide_False in Hk by done. by eapply IH.
    + case_decide; [|done]. by eapply IH.
    + rewrite decide_False in Hk; [by eapply IH|]. intros ->. apply (Hn r oponly). by left.
    + rewrite decide_False in Hk by done. by eapply IH.
    + rewrite decide_False in Hk by done. by eapply IH.
Qed.
Lemma kabt_elem c e x : x ∈ kabt c e <-> kabout c x = true /\ x ∈ e.
Proof. apply (elem_of_list_filter (fun x => kabout c x = true)). Qed.
Lemma dn_kabt uid c e : dn (sent uid c (kabt c e)) = dn (sent uid c e).
Proof.
  unfold kabt. induction e as [|x e IH]; [done|]. destruct (kabout c x) eqn:E.
  - rewrite filter_cons_True by done. rewrite !sent_cons. destruct (wire uid x) as [[d m]|]; [|done]. case_bool_decide; [|done]. unfold dn in *. rewrite !filter_cons, IH. done.
  - rewrite filter_cons_False by congruence. rewrite sent_cons, IH. destruct x; cbn in *; try done; try (rewrite E; done); case_bool_decide; done.
Qed.

(** ** One step *)
Section step.
Context (cfg : plug -> list uact) (ra : N) (unl : bool) (D : Prop).
Context (o : aop) (s s' : astore) (tr e : list aev).
Context (HR : reach D s tr) (HR' : reach D s' (tr ++ e)) (Hok : Forall (ok_ev o s) e).

Lemma step_lk a : crun a (lk_of (x_sv s !! a)) e = Some (lk_of (x_sv s' !! a)).
Proof. pose proof (reach_lk _ a _ _ HR') as H. by rewrite crun_app, (reach_lk _ a _ _ HR) in H. Qed.
Lemma step_k c : krun c (x_st s, x_cl s !! c) e = Some (x_st s', x_cl s' !! c).
Proof. pose proof (reach_k _ c _ _ HR') as H. by rewrite krun_app, (reach_k _ c _ _ HR) in H. Qed.
Lemma ok_in x : x ∈ e -> ok_ev o s x.
Proof. rewrite Forall_forall in Hok. apply Hok. Qed.
Lemma starts_quits : starts o s -> quits o s -> False.
Proof. intros [H1 H2] [[H3 [H4|[-> H4]]]|[a ->]]; [rewrite H4 in H1; cbn in H1; lia|done|done]. Qed.

Lemma client_step uid a : o <> OUnlinkReq a -> (forall id r, o = OResp id r -> x_pend s !! id <> Some (QLink a)) ->
  let σ := lk_of (x_sv s !! a) in let σ' := lk_of (x_sv s' !! a) in
  σ' = σ /\ up (sent uid a e) = [] \/
  (σ = LkNo /\ rank (x_st s) < rank AShuttingDown /\ exists p id, σ' = LkIng id /\ up (sent uid a e) = [WLinkReq id p] /\ EvLink a p id ∈ e) \/
  (σ <> LkNo /\ σ' = LkNo /\ up (sent uid a e) = [WNotify] /\ ends o s) \/
  (σ <> LkNo /\ σ' = LkNo /\ up (sent uid a e) = [WUnlinkRep (uid a)] /\ a ∈ x_uq s).
Proof.
  intros H1 H2 σ σ'. assert (HL : forall b, EvLinkResp a b ∉ e).
  { intros b (id & r & E1 & E2 & _)%ok_in. by eapply H2. }
  destruct (decide (EvNotify a ∈ e \/ EvUnlinkReply a ∈ e)) as [Hq|Hq].
  - assert (quits o s) as Hqt by (destruct Hq as [Hq|Hq]; apply ok_in in Hq; [by left|apply Hq]).
    destruct (c_quits uid a σ σ' e) as [(E1 & E2 & E3)|(E1 & E2 & E3)].
    + apply step_lk.
    + done.
    + intros p id Hin%ok_in. by apply starts_quits.
    + by left.
    + right; right. destruct E3 as [[E3 Hin]|[E3 Hin]]; apply ok_in in Hin; [by left|]. right. split_and!; try done. by destruct Hin as [[?|?] _].
  - apply Decidable.not_or in Hq as [Hq1 Hq2]. destruct (c_starts uid a σ σ' e) as [(E1 & E2 & _)|(E1 & p & id & E2 & E3 & E4)]; try done.
    + apply step_lk.
    + by left.
    + right; left. split_and!; [done| |eauto 10]. apply ok_in in E4. apply E4.
Qed.
Lemma client_unlink uid a : o = OUnlinkReq a ->
  let σ := lk_of (x_sv s !! a) in let σ' := lk_of (x_sv s' !! a) in
  σ' = σ /\ up (sent uid a e) = [] \/
  (σ <> LkNo /\ σ' = LkNo /\ (up (sent uid a e) = [WNotify] /\ ends o s \/ up (sent uid a e) = [WUnlinkRep (uid a)])).
Proof.
  intros H1 σ σ'. destruct (c_quits uid a σ σ' e) as [(E1 & E2 & E3)|(E1 & E2 & E3)].
  - apply step_lk.
  - intros b (id & r & E1 & E2 & _)%ok_in. congruence.
  - intros p id [_ Hin]%ok_in. by rewrite H1 in Hin.
  - by left.
  - right. split_and!; try done. destruct E3 as [[E3 Hin]|[E3 Hin]]; [left|by right]. split; [done|]. by apply ok_in in Hin.
Qed.
Lemma client_answer uid a id r : o = OResp id r -> x_pend s !! id = Some (QLink a) -> x_sv s !! a <> None -> x_st s <> AShutDown -> astep cfg ra unl s o = Ok (s', e) ->
  up (sent uid a e) = [] /\ lk_of (x_sv s' !! a) = match r with RpErr => LkNo | _ => LkUp end.
Proof.
  intros H1 H2 Hs Hst He. assert (Ha : no_end o s = true) by (rewrite H1; cbn; by rewrite H2).
  set (b := match r with RpErr => false | _ => true end).
  destruct (c_answers uid a (lk_of (x_sv s !! a)) (lk_of (x_sv s' !! a)) e b) as (E1 & E2 & _).
  - apply step_lk.
  - apply lk_of_some. by apply not_eq_None_Some.
  - intros b' (id' & r' & E1 & E2 & ->)%ok_in. unfold b. rewrite H1 in E1. by injection E1 as _ <-.
  - subst o. by eapply link_resp_must.
  - intros Hb p i [_ Hin]%ok_in. subst o. destruct r; try done. rewrite Ha in Hin. done.
  - intros [Hin _]%ok_in. congruence.
  - intros [_ [[Hin _]|[? Hin]]]%ok_in; congruence.
  - split; [done|]. by destruct r.
Qed.

Lemma no_link_req c : (forall r p, o <> OLinkReq c r p) -> forall r p, EvLinkReq c r p ∉ e.
Proof. intros H r p Hin%ok_in. by eapply H. Qed.
Lemma server_step uid c : (forall r p, o <> OLinkReq c r p) -> o <> OUnlinkNotify c -> (forall id r, o = OResp id r -> x_pend s !! id <> Some (QUnlink c)) ->
  let κ := x_cl s !! c in let κ' := x_cl s' !! c in
  κ' = κ /\ dn (sent uid c e) = [] \/
  (exists r, κ = Some (CPending r) /\ κ' = Some COperational /\ dn (sent uid c e) = [WLinkAns r LOk]) \/
  (exists id, κ = Some COperational /\ κ' = Some (CUnlinking id) /\ dn (sent uid c e) = [WUnlinkReq id] /\ EvUnlinkReq c id ∈ e).
Proof.
  intros H1 H2 H3 κ κ'. pose proof (krun_kabt _ _ _ _ _ _ (step_k c) (no_link_req c H1)) as Hk. rewrite <- dn_kabt.
  assert (Hin : forall x, x ∈ kabt c e -> x ∈ e) by (intros x [_ ?]%kabt_elem; done).
  assert (Hall : forall x, x ∈ kabt c e -> (exists id, x = EvUnlinkReq c id /\ ends o s) \/ (exists r, x = EvLinkAns c r LOk /\ o = OStart /\ κ = Some (CPending r))).
  { intros x [Hx He]%kabt_elem. apply ok_in in He. destruct x; cbn in Hx; try discriminate; apply bool_decide_eq_true in Hx; subst; cbn in He.
    - left. eauto.
    - right. destruct He as [(E1 & -> & E2)|[p E]]; [eauto|]. by eapply H1 in E.
    - by destruct H2.
    - destruct He as (id & r & E1 & E2). by destruct (H3 id r). }
  fold κ κ' in Hk. clearbody κ κ'. revert Hk Hall Hin. generalize (kabt c e). intros l Hk Hall Hin.
  destruct l as [|x [|y l]].
  - left. by injection Hk as <-.
  - right. destruct (Hall x) as [(id & -> & _)|(r & -> & _ & ->)]; [by left|..]; rewrite sent_cons; cbn in Hk |- *; rewrite bool_decide_true by done; cbn.
    + right. destruct κ as [[]|]; try done. injection Hk as <-. exists id. split_and!; try done. apply Hin. by left.
    + left. rewrite decide_True in Hk by done. injection Hk as <-. eauto.
  - exfalso. destruct (Hall x) as [(id & -> & He)|(r & -> & Ho & E)]; [by left|..].
    + destruct (Hall y) as [(id' & -> & _)|(r & -> & Ho & ->)]; [right; by left|..]; [|done]. destruct κ as [[]|]; try done.
    + destruct (Hall y) as [(id' & -> & He)|(r' & -> & _ & E')]; [right; by left|..]; subst κ; cbn in Hk; rewrite decide_True in Hk by done; [|done]. destruct He as [He _]. by rewrite Ho in He.
Qed.
(** The client has left. *)
Lemma server_left c : (forall r p, o <> OLinkReq c r p) -> o <> OStart -> EvGotNotify c ∈ e \/ EvUnlinkOk c ∈ e -> x_cl s' !! c = None.
Proof.
  intros H1 H2 Hg. pose proof (krun_kabt _ _ _ _ _ _ (step_k c) (no_link_req c H1)) as Hk.
  assert (Hall : forall x, x ∈ kabt c e -> (exists id, x = EvUnlinkReq c id) \/ x = EvGotNotify c \/ x = EvUnlinkOk c).
  { intros x [Hx He]%kabt_elem. apply ok_in in He. destruct x; cbn in Hx; try discriminate; apply bool_decide_eq_true in Hx; subst; cbn in He; eauto.
    destruct He as [(E1 & -> & E2)|[p E]]; [done|]. by eapply H1 in E. }
  assert (Hg' : EvGotNotify c ∈ kabt c e \/ EvUnlinkOk c ∈ kabt c e) by (destruct Hg as [Hg|Hg]; [left|right]; apply kabt_elem; cbn; by rewrite bool_decide_true).
  revert Hk Hall Hg'. generalize (kabt c e) as l. generalize (x_cl s !! c) as κ. generalize (x_cl s' !! c) as κ'. clear Hg.
  intros κ' κ l. revert κ. induction l as [|x l IH]; intros κ Hk Hall Hg'; [by destruct Hg' as [?%elem_of_nil|?%elem_of_nil]|].
  assert (Hn : forall l, krun1 None l = Some κ' -> (forall y, y ∈ l -> (exists id, y = EvUnlinkReq c id) \/ y = EvGotNotify c \/ y = EvUnlinkOk c) -> κ' = None).
  { clear. induction l as [|x l IH]; cbn; [congruence|]. intros Hk Hall. destruct (Hall x) as [[id ->]|[-> | ->]]; [by left|done| |done]. apply IH; [done|]. intros y Hy. apply Hall. by right. }
  cbn in Hk. destruct (Hall x) as [[id ->]|[-> | ->]]; [by left|..].
  - destruct κ as [[]|]; try done. eapply IH; [exact Hk| |].
    + intros y Hy. apply Hall. by right.
    + destruct Hg' as [Hg'|Hg']; apply elem_of_cons in Hg' as [?|?]; try done; [by left|by right].
  - eapply Hn; [exact Hk|]. intros y Hy. apply Hall. by right.
  - destruct κ; [|done]. eapply Hn; [exact Hk|]. intros y Hy. apply Hall. by right.
Qed.
(** Nothing is sent to it, if it was asked before. *)
Lemma server_left_quiet uid c k : (forall r p, o <> OLinkReq c r p) -> o <> OStart -> x_cl s !! c = Some (CUnlinking k) -> dn (sent uid c e) = [].
Proof.
  intros H1 H2 Hc. pose proof (krun_kabt _ _ _ _ _ _ (step_k c) (no_link_req c H1)) as Hk. rewrite <- dn_kabt.
  assert (Hall : forall x, x ∈ kabt c e -> (exists id, x = EvUnlinkReq c id) \/ x = EvGotNotify c \/ x = EvUnlinkOk c).
  { intros x [Hx He]%kabt_elem. apply ok_in in He. destruct x; cbn in Hx; try discriminate; apply bool_decide_eq_true in Hx; subst; cbn in He; eauto.
    destruct He as [(E1 & -> & E2)|[p E]]; [done|]. by eapply H1 in E. }
  assert (Hκ : x_cl s !! c <> Some COperational) by congruence.
  revert Hk Hall Hκ. generalize (kabt c e) as l. generalize (x_cl s !! c) as κ. generalize (x_cl s' !! c) as κ'. clear Hc k.
  intros κ' κ l. revert κ. induction l as [|x l IH]; intros κ Hk Hall Hκ; [done|]. cbn in Hk. rewrite sent_cons.
  assert (Hall' : forall y, y ∈ l -> (exists id, y = EvUnlinkReq c id) \/ y = EvGotNotify c \/ y = EvUnlinkOk c) by (intros y Hy; apply Hall; by right).
  destruct (Hall x) as [[id ->]|[-> | ->]]; [by left|..]; cbn [wire].
  - by destruct κ as [[]|].
  - by apply (IH None).
  - destruct κ; [|done]. by apply (IH None).
Qed.
(** The state does not go back. *)
Lemma state_mono : rank (x_st s) <= rank (x_st s').
Proof.
  pose proof (step_k 0) as H. revert H. generalize (x_st s), (x_cl s !! 0), (x_st s'), (x_cl s' !! 0). clear. intros st κ st' κ'. revert st κ.
  induction e as [|x r IH]; intros st κ; cbn [krun]; [intros [= -> _]; lia|]. destruct (kstep 0 (st, κ) x) as [[st1 κ1]|] eqn:E; [|done]. intros H. apply IH in H.
  enough (rank st <= rank st1) by lia. clear -E. destruct x; cbn in E; repeat case_match; destruct_and?; simplify_eq; lia.
Qed.
End step.
