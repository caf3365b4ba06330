(** The invariant of the name service: an actor does something. *)
From stdpp Require Import base list gmap strings.
From Verif Require Import Base Prog RegistryModel RegistrySpec RegistryProofs ActorModel ActorSpec ActorMoves ActorReach ActorSteps ActorProofs NetModel NetSpec NetLocal NetViews NetInv NamesModel NamesSpec NamesLocal NamesEvents NamesFlight NamesViews NamesInv.
Open Scope N_scope.

Lemma chain_dereg0 s e s' m : chain s e s' -> EvRegResp m true ∉ e -> EvDereg m ∈ e -> x_rm s !! m = Some ROperational.
Proof.
  intros Hc. induction Hc as [|e s1 e' s2 Hc IH Hm]; intros Hn Hd; [by apply elem_of_nil in Hd|].
  rewrite elem_of_app in Hn. apply elem_of_app in Hd as [Hd|Hd]; [apply IH; tauto|]. destruct (move_rm _ _ _ m Hm) as (_ & _ & M3 & _). destruct (M3 Hd) as (F1 & _).
  destruct (chain_op _ _ _ m Hc F1); tauto.
Qed.
Lemma emit_first {A} (x : aev) (f : unit -> prog astore aev A) s s' e a : bnd (emit x) f s = Ok (s', e, a) -> x ∈ e.
Proof. unfold bnd, emit. destruct (f tt s) as [[[? ?] ?]| |]; try done. intros [= <- <- <-]. by left. Qed.
Lemma reg_resp cfg ra unl id s m s' e : x_st s <> AShutDown -> x_pend s !! id = Some (QReg m) -> astep cfg ra unl s (OResp id RpOk) = Ok (s', e) -> EvRegResp m true ∈ e.
Proof.
  intros Hst Hq Hs. unfold astep, to_step in Hs. destruct (aprog cfg ra unl (OResp id RpOk) s) as [[[s1 e1] []]| |] eqn:E; try done. injection Hs as <- <-.
  assert (E2 : forall q, x_pend s !! id = Some q -> respond cfg ra unl q RpOk (w_pend s (delete id (x_pend s))) = Ok (s1, e1, tt)).
  { clear Hq. intros q Hq. unfold aprog, bnd, get in E. cbn in E. rewrite bool_decide_eq_false_2 in E by done. cbn in E. unfold bnd, get in E. cbn in E. rewrite Hq in E. cbn in E.
    unfold modify in E. destruct (respond _ _ _ _ _ _) as [[[? ?] []]| |]; congruence. }
  specialize (E2 _ Hq).
  cbn [respond] in E2. unfold on_registration in E2. by apply emit_first in E2.
Qed.

Section act.
Context (nm : N -> string) (cfg : N -> plug -> list uact) (ra : N) (unl : N -> bool).
Context {HI : Inj eq eq nm}.
Notation S y n := (sto (y_net y) n).
Notation T y n := (trace (y_net y) n).
Notation listed := (listed nm).
Notation backs := (backs nm).
Notation oks := (oks nm).
Notation acts := (acts nm cfg ra unl).
Notation YI := (YI nm ra).

(** What the step of an actor does to a name. *)
Record named_step (s : astore) (r0 : option rout) (s' : astore) (e : list aev) (m : N) : Prop := NamedStep {
  n_got : EvRegResp m true ∈ e -> exists q, r0 = Some (RegOk q) /\ rr_name q = nm m;
  n_back : EvDereg m ∈ e -> x_rm s !! m = Some ROperational /\ (x_lked s = true -> x_rm s' !! m = None /\ length (filter (eq (EvDereg m)) e) = 1%nat);
  n_ok : forall q, r0 = Some (RegOk q) -> (forall k, EvDereg k ∉ e) /\ (rr_name q = nm m -> x_rm s' !! m = Some ROperational);
  n_hold : x_rm s !! m = Some ROperational -> x_rm s' !! m = Some ROperational \/ EvDereg m ∈ e \/ EvRegResp m false ∈ e;
  n_new : x_rm s' !! m = Some ROperational -> x_rm s !! m = Some ROperational \/ EvRegResp m true ∈ e
}.
Lemma act_named y ev n o r0 y' s' e m : YI y ev -> acts y n o r0 y' s' e -> named_step (S y n) r0 s' e m.
Proof.
  intros HY HA. pose proof (fl_reach _ (i_fl _ _ _ _ HY) n) as HR. destruct (step_chain _ _ _ _ _ _ _ _ HR (ac_step _ _ _ _ _ _ _ _ _ _ _ HA)) as [HR' HC].
  pose proof (step_events _ _ _ _ _ _ _ (ac_step _ _ _ _ _ _ _ _ _ _ _ HA)) as HE. rewrite Forall_forall in HE.
  assert (HG : EvRegResp m true ∈ e -> exists q, r0 = Some (RegOk q) /\ rr_name q = nm m).
  { intros (r & Ha & Hr)%HE. pose proof (ac_op _ _ _ _ _ _ _ _ _ _ _ HA) as Ho. pose proof (ac_from _ _ _ _ _ _ _ _ _ _ _ HA) as Hf. destruct r0 as [r0|].
    - destruct Ho as (-> & Hst & q & Hq & _). destruct Hf as (l & Hf & _).
      pose proof (from_query nm y n r0 q (i_fl _ _ _ _ HY) (i_from _ _ _ _ HY n r0 ltac:(rewrite Hf; by left)) Hq) as Hq'.
      destruct Ha as [(id & [= <- <-] & Hp)|(? & _)]; [|done]. destruct r0; cbn in *; try done; destruct Hq' as (m' & -> & Hn); rewrite Hq in Hp; try done. injection Hp as ->. eauto.
    - destruct (Ho _ _ Ha) as [?| ->]; [done|]. destruct Ha as [(id & ? & _)|(_ & _ & ->)]; done. }
  assert (HB : EvDereg m ∈ e -> EvRegResp m true ∉ e).
  { intros Hd%HE (r & Ha & _)%HE. by apply Hd in Ha. }
  split; try done.
  - intros Hd. split; [by apply (chain_dereg0 _ _ _ _ HC); [apply HB|]|]. intros HL. by apply (chain_dereg _ _ _ _ HC (HB Hd) HL).
  - intros q ->. destruct (ac_op _ _ _ _ _ _ _ _ _ _ _ HA) as (-> & Hst & q' & Hq & _). destruct (ac_from _ _ _ _ _ _ _ _ _ _ _ HA) as (l & Hf & _). cbn in Hq.
    destruct (from_query nm y n (RegOk q) q' (i_fl _ _ _ _ HY) (i_from _ _ _ _ HY n (RegOk q) ltac:(rewrite Hf; by left)) Hq) as (m' & -> & Hn). cbn in *.
    pose proof (reg_resp _ _ _ _ _ _ _ _ Hst Hq (ac_step _ _ _ _ _ _ _ _ _ _ _ HA)) as Hin.
    assert (Hno : forall k, EvDereg k ∉ e) by (intros k Hk%HE; apply (Hk m' RpOk); left; by eexists).
    split; [done|]. rewrite Hn. intros ->%(inj nm). apply (reach_reg _ _ _ HR'). apply elem_of_list_split in Hin as (e1 & e2 & ->).
    exists (T y n ++ e1), (EvRegResp m true), e2. split; [by rewrite <- (assoc_L (++))|]. split; [done|]. apply Forall_forall. intros x Hx [-> | ->].
    + apply (Hno m). set_solver.
    + destruct (HE (EvRegResp m false)) as (r & [(id & [= <- <-] & _)|(? & _)] & ?); [set_solver|done|done].
  - apply (chain_hold _ _ _ _ HC).
  - apply (chain_op _ _ _ _ HC).
Qed.

Lemma act_inv y ev n o r0 y' s' e ev' : YI y ev -> acts y n o r0 y' s' e -> fl (y_net y') -> is_Some (w_act (y_net y') !! ra) -> YI y' (ev ++ ev').
Proof.
  intros HY HA HF Hra. pose proof (fun m => act_named y ev n o r0 y' s' e m HY HA) as HN.
  pose proof (fl_reach _ (i_fl _ _ _ _ HY) n) as HR. destruct (step_chain _ _ _ _ _ _ _ _ HR (ac_step _ _ _ _ _ _ _ _ _ _ _ HA)) as [HR' HC].
  pose proof (step_events _ _ _ _ _ _ _ (ac_step _ _ _ _ _ _ _ _ _ _ _ HA)) as HE. rewrite Forall_forall in HE.
  destruct HA as [Hin Hs Es Et Er Eto Hfr Hop].
  assert (Hown : forall k, owner y' k = owner y k) by (intros k; unfold owner; by rewrite Er).
  assert (Htr : forall k x, x ∈ T y k -> x ∈ T y' k) by (intros k x Hx; rewrite Et; case_decide; [subst; apply elem_of_app; by left|done]).
  assert (Hfrom : forall k x, x ∈ y_from y' k -> x ∈ y_from y k).
  { intros k x. destruct r0 as [r|]; [|by rewrite Hfr]. destruct Hfr as (l & E1 & E2). rewrite E2. case_decide; [subst; rewrite E1; by right|done]. }
  assert (Hnamed : forall k a, named nm y k a -> named nm y' k a) by (intros k a (m & id & E & H); exists m, id; split; [done|by apply Htr]).
  assert (Hlive : live ra y' -> live ra y).
  { unfold live. rewrite Es. intros H Hd. apply H. case_decide; [subst n|done]. by destruct (dead_step _ _ _ _ _ _ _ Hd Hs) as [-> _]. }
  assert (HL : x_lked (S y n) = true -> x_lked s' = true) by apply (chain_lked _ _ _ HC).
  split; try done.
  - rewrite Er. apply (i_reg _ _ _ _ HY).
  - intros k x. rewrite Eto. case_decide; [subst k|].
    + intros [Hx|Hx]%elem_of_app.
      * apply (i_to _ _ _ _ HY) in Hx. destruct x; cbn in *; try done; destruct Hx as (m & id & Hx & ->); exists m, id; (split; [by apply Htr|done]).
      * apply asked_in in Hx as (z & pid & Hz & Ha). assert (Hz' : z ∈ T y' n) by (rewrite Et, decide_True by done; apply elem_of_app; by right).
        destruct z; cbn in Ha; try done; injection Ha as <-; cbn; try done; by eexists _, _.
    + intros Hx%(i_to _ _ _ _ HY). destruct x; cbn in *; try done; destruct Hx as (m & id & Hx & ->); exists m, id; (split; [by apply Htr|done]).
  - intros k r Hr%Hfrom%(i_from _ _ _ _ HY). destruct r; cbn in *; try (destruct Hr as (m & id & Hx & ->); exists m, id; (split; [by apply Htr|done]));
      destruct Hr as [(m & id & Hx & ->) Hn]; (split; [|by apply Hnamed]); exists m, id; (split; [by apply Htr|done]).
  - intros d. rewrite Er. intros (m & id & Hx & Hd)%(i_prom _ _ _ _ HY). exists m, id. split; [by apply Htr|done].
  - intros k a. rewrite Hown. intros H%(i_named _ _ _ _ HY). by apply Hnamed.
  - intros c m a Hx. assert (Hc : EvDiscResp m (Some a) ∈ T y c \/ c = n /\ EvDiscResp m (Some a) ∈ e).
    { rewrite Et in Hx. case_decide; [subst; apply elem_of_app in Hx; tauto|by left]. }
    destruct Hc as [Hc|[-> Hc]]; [destruct (i_found _ _ _ _ HY _ _ _ Hc) as (id & ?); exists id; by apply Htr|].
    apply HE in Hc as (r & Ha & Hr). destruct r0 as [r0|].
    + destruct Hop as (-> & Hst & q & Hq & _). destruct Hfr as (l & E1 & _). pose proof (i_from _ _ _ _ HY n r0 ltac:(rewrite E1; by left)) as Hfo.
      pose proof (from_query nm y n r0 q (i_fl _ _ _ _ HY) Hfo Hq) as Hq'.
      destruct Ha as [(id & [= <- <-] & Hp)|(? & _)]; [|done]. destruct r0; cbn in *; try done; destruct Hq' as (m' & -> & Hn); rewrite Hq in Hp; try done; injection Hp as ->; injection Hr as ->;
        destruct Hfo as [_ (m2 & id & E & Hm2)]; rewrite Hn in E; apply (inj nm) in E as ->; exists id; by apply Htr.
    + destruct (Hop _ _ Ha) as [?| ->]; [done|]. destruct Ha as [(id & ? & _)|(_ & _ & ->)]; done.
  - intros c m. destruct (i_own _ _ _ _ HY c m) as [O1 O2 O3 O4]. unfold op in *. destruct (decide (c = n)) as [-> |Hc].
    + destruct (HN m) as [N1 N2 N3 N4 N5]. assert (Hbk : backs m (y_to y' n) = (backs m (y_to y n) + length (filter (eq (EvDereg m)) e))%nat) by (rewrite Eto, decide_True by done; by rewrite backs_app, backs_asked).
      assert (Hcnt : (0 < length (filter (eq (EvDereg m)) e))%nat -> EvDereg m ∈ e).
      { destruct (filter (eq (EvDereg m)) e) as [|z l] eqn:E; cbn; [lia|]. intros _. assert (Hz : z ∈ filter (eq (EvDereg m)) e) by (rewrite E; by left). by apply elem_of_list_filter in Hz as [<- ?]. }
      assert (Hnocnt : EvDereg m ∉ e -> length (filter (eq (EvDereg m)) e) = 0%nat) by (intros H; destruct (length _) eqn:E; [done|]; destruct H; apply Hcnt; lia).
      assert (Hok : (oks m (y_from y' n) <= oks m (y_from y n))%nat).
      { destruct r0 as [r|]; [|by rewrite Hfr]. destruct Hfr as (l & E1 & E2). rewrite E2, E1, decide_True by done. change (r :: l) with ([r] ++ l). rewrite oks_app. lia. }
      assert (Hs' : S y' n = s') by (by rewrite Es, decide_True).
      assert (Hl' : listed y' n m <-> listed y n m) by (unfold NamesSpec.listed; by rewrite Hown).
      split; unfold op; rewrite ?Hs', ?Hl', ?Hbk.
      * intros Hop'. destruct (N5 Hop') as [H|(q & -> & Hq)%N1].
        -- destruct (O1 H) as (P1 & P2 & P3 & P4). assert (Hnd : EvDereg m ∉ e) by (intros Hd; apply N2 in Hd as [_ Hd]; destruct (Hd P4) as [Hd' _]; congruence).
           rewrite (Hnocnt Hnd). split_and!; [done|lia|lia|auto].
        -- destruct Hfr as (l & E1 & E2). rewrite E1 in *. change (RegOk q :: l) with ([RegOk q] ++ l) in *. rewrite oks_app in *. assert (Hone : oks m [RegOk q] = 1%nat) by (unfold NamesViews.oks; cbn; by rewrite bool_decide_true).
           rewrite E2, decide_True by done. rewrite Hone in *. destruct (N3 _ eq_refl) as [Hnd _]. rewrite (Hnocnt (Hnd m)).
           assert (Hz : backs m (y_to y n) = 0%nat) by (destruct (backs m (y_to y n)); [done|]; destruct O3 as (_ & _ & _ & ?); lia).
           split_and!; [apply O4; lia|lia|lia|]. apply HL. assert (Hfo : reg_req_ok nm (T y n) n q) by (apply (i_from _ _ _ _ HY n (RegOk q)); rewrite E1; by left). destruct Hfo as (m' & id & Hm & _). by apply (reach_asked _ _ _ _ _ HR Hm).
      * split; [|lia]. destruct (decide (length (filter (eq (EvDereg m)) e) = 0%nat)) as [-> |Hd]; [lia|]. apply N2 in Hcnt as [Ho Hd']; [|lia]. destruct (O1 Ho) as (P1 & P2 & P3 & P4). destruct (Hd' P4) as [_ ->]. lia.
      * intros Hpos. destruct (decide (length (filter (eq (EvDereg m)) e) = 0%nat)) as [E|Hd].
        -- destruct O3 as (P1 & P2 & P3 & P4); [lia|]. split_and!; [done| |auto|lia]. by apply (chain_lked _ _ _ HC).
        -- apply N2 in Hcnt as [Ho Hd']; [|lia]. destruct (O1 Ho) as (P1 & P2 & P3 & P4). destruct (Hd' P4) as [Hn' _]. split_and!; [done|done|auto|lia].
      * intros H. apply O4. lia.
    + assert (E1 : S y' c = S y c) by (by rewrite Es, decide_False). assert (E2 : y_to y' c = y_to y c) by (by rewrite Eto, decide_False).
      assert (E3 : y_from y' c = y_from y c) by (destruct r0 as [r|]; [|by rewrite Hfr]; destruct Hfr as (l & F1 & F2); by rewrite F2, decide_False).
      split; unfold op, NamesSpec.listed in *; by rewrite ?E1, ?E2, ?E3, ?Hown.
  - intros HLv%Hlive c x Hx. pose proof (i_wait _ _ _ _ HY HLv c x) as Hw.
    destruct (decide (c = n)) as [-> |Hc].
    + assert (Ex : T y' n = T y n ++ e) by (by rewrite Et, decide_True). rewrite Ex in Hx. assert (E1 : S y' n = s') by (by rewrite Es, decide_True).
      assert (E2 : y_to y' n = y_to y n ++ asked nm n (y_pid y n) e) by (by rewrite Eto, decide_True).
      apply elem_of_app in Hx as [Hx|Hx].
      * specialize (Hw Hx). assert (Hans : forall id q, req_ev x = Some (id, q) -> answered y n id -> answered y' n id).
        { intros id q Hq Ha. destruct (reach_reqs _ _ _ HR) as (R1 & R2 & R3). assert (Hi : (id, q) ∈ reqs (T y n)) by (apply elem_of_list_omap; eauto). pose proof (R1 _ _ Hi) as Hlt.
          assert (Hgone : x_pend (S y n) !! id = None -> x_pend s' !! id = None) by (by apply (chain_pend _ _ _ HC)).
          unfold answered. rewrite E1. destruct Ha as [(r & Hr & Hn)|[H|H]]; [|right; left; by apply Hgone|right; right; by destruct (dead_step _ _ _ _ _ _ _ H Hs) as [-> _]].
          destruct r0 as [r0|]; [|left; exists r; by rewrite Hfr]. destruct Hfr as (l & F1 & F2). rewrite F2, decide_True by done. rewrite F1 in Hr. apply elem_of_cons in Hr as [-> |Hr]; [|left; by exists r].
          destruct Hop as (-> & Hst & q' & Hq' & _). right. left. rewrite Hn in *. pose proof (resp_chain _ _ _ _ _ _ _ _ _ _ HR Hst Hq' Hs) as HC2.
          apply (proj2 (chain_pend _ _ _ HC2)); [done|]. cbn. apply lookup_delete. }
        destruct x; cbn [wait] in Hw |- *; try done; rewrite E2, ?Er, ?elem_of_app; cbn in Hans; specialize (Hans _ _ eq_refl); tauto.
      * destruct x; cbn [wait]; try done; left; rewrite E2; apply elem_of_app; right; eapply in_asked; try exact Hx; done.
    + assert (E1 : S y' c = S y c) by (by rewrite Es, decide_False). assert (E2 : y_to y' c = y_to y c) by (by rewrite Eto, decide_False).
      assert (E3 : y_from y' c = y_from y c) by (destruct r0 as [r|]; [|by rewrite Hfr]; destruct Hfr as (l & F1 & F2); by rewrite F2, decide_False).
      assert (E4 : T y' c = T y c) by (by rewrite Et, decide_False). rewrite E4 in Hx. specialize (Hw Hx). destruct x; cbn [wait] in *; try done; unfold answered in *; by rewrite ?E1, ?E2, ?E3, ?Er.
  - intros HLv%Hlive c m. unfold NamesSpec.listed. rewrite Hown. intros Hl%(i_back _ _ _ _ HY HLv). unfold kept, op in *. destruct (HN m) as [N1 N2 N3 N4 N5].
    assert (Hlost : lost_answer nm ev c m -> lost_answer nm (ev ++ ev') c m) by (intros (q & Hq & ?); exists q; split; [apply elem_of_app; by left|done]).
    destruct (decide (c = n)) as [-> |Hc].
    + rewrite Es, Eto, Et, !decide_True by done. rewrite backs_app, (backs_asked nm), elem_of_app by exact HI. destruct Hl as [H|[H|[H|[H|H]]]].
      * destruct (N4 H) as [H1|[H1|H1]]; [by left| |by right; right; right; right; right]. right; left.
        destruct (filter (eq (EvDereg m)) e) as [|z l] eqn:E; [|cbn; lia]. assert (Hz : EvDereg m ∈ filter (eq (EvDereg m)) e) by (by apply elem_of_list_filter). rewrite E in Hz. by apply elem_of_nil in Hz.
      * right; left. lia.
      * destruct r0 as [r|]; [|rewrite Hfr; tauto]. destruct Hfr as (l & E1 & E2). rewrite E2, decide_True by done. rewrite E1 in H. apply oks_pos in H as (q & Hq & Hn).
        apply elem_of_cons in Hq as [<-|Hq]; [|right; right; left; apply oks_pos; by exists q]. left. by apply (N3 q).
      * tauto.
      * tauto.
    + assert (E1 : S y' c = S y c) by (by rewrite Es, decide_False). assert (E2 : y_to y' c = y_to y c) by (by rewrite Eto, decide_False).
      assert (E3 : y_from y' c = y_from y c) by (destruct r0 as [r|]; [|by rewrite Hfr]; destruct Hfr as (l & F1 & F2); by rewrite F2, decide_False).
      assert (E4 : T y' c = T y c) by (by rewrite Et, decide_False). rewrite E1, E2, E3, E4. tauto.
Qed.
End act.
