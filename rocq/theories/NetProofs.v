(** What follows about actors which link to each other. *)
From stdpp Require Import base list gmap.
From Verif Require Import Base Prog ActorModel ActorSpec ActorMoves ActorReach ActorProofs ActorSafeSpec ActorSafe ActorSafeRun ActorSteps NetModel NetSpec NetLocal NetViews NetSteps NetSettle NetPair NetInv NetRun.
Open Scope N_scope.

(** ** A link, as the client sees it *)
Lemma linked_to_snoc a ev x : linked_to a (ev ++ [x]) <->
  match x with
  | EvLinkResp b ok => if decide (b = a) then ok = true else linked_to a ev
  | EvNotify b | EvUnlinkReply b => b <> a /\ linked_to a ev
  | _ => linked_to a ev
  end.
Proof. unfold linked_to at 1. rewrite since_snoc. destruct x; try case_decide; subst; try naive_solver. destruct ok; naive_solver. Qed.
Lemma crun_up a ev σ : crun a LkNo ev = Some σ -> linked_to a ev <-> σ = LkUp.
Proof.
  revert σ. induction ev as [|x ev IH] using rev_ind; intros σ.
  { cbn. intros [= <-]. split; [by intros ?%since_nil|done]. }
  rewrite crun_app. destruct (crun a LkNo ev) as [τ|]; [|done]. specialize (IH τ eq_refl). rewrite linked_to_snoc. cbn. intros H.
  destruct (cstep a τ x) as [υ|] eqn:E; [|done]. injection H as ->.
  destruct x; cbn in E; try (injection E as <-; exact IH); case_decide; subst; try (injection E as <-; naive_solver).
  - destruct τ; try done. injection E as <-. naive_solver.
  - destruct τ; try done; injection E as <-; naive_solver.
  - destruct τ; try done; injection E as <-; naive_solver.
  - destruct τ; try done; injection E as <-; destruct ok; naive_solver.
Qed.
Lemma linked_to_lk D s ev a : reach D s ev -> linked_to a ev <-> lk_of (x_sv s !! a) = LkUp.
Proof. intros HR. apply crun_up. by eapply reach_lk. Qed.

Ltac none_of_them :=
  let x := fresh "x" in let Hx := fresh "Hx" in
  intros x Hx;
  try match goal with HE : forall y, y ∈ ?e <-> exists n, _ |- _ => apply HE in Hx as (? & Hx & _) end;
  repeat match type of Hx with
  | _ ∈ [] => by apply elem_of_nil in Hx
  | _ ∈ _ ++ _ => apply elem_of_app in Hx as [Hx|Hx]
  | _ ∈ (if ?b then _ else _) => destruct b
  | _ ∈ _ :: _ => apply elem_of_cons in Hx as [Hx|Hx]
  end; subst x; try done; try (match goal with d : bool |- _ => by destruct d end).
(** The registry plugin which has agreed does not change its mind. *)
Lemma reach_voted D s ev : reach D s ev -> x_d s PRg = false <-> EvShutVote PRg true ∈ ev.
Proof.
  apply (reach_inv D (fun s ev => x_d s PRg = false <-> EvShutVote PRg true ∈ ev)); [split; [done|by intros ?%elem_of_nil]|]. clear. intros s ev e s' _ HI Hm.
  assert (Hq : forall e s', x_d s' PRg = x_d s PRg -> (forall x, x ∈ e -> x <> EvShutVote PRg true) -> x_d s' PRg = false <-> EvShutVote PRg true ∈ ev ++ e).
  { intros e1 s1 -> He. rewrite elem_of_app, HI. split; [by left|]. intros [?|H]; [done|]. by apply He in H. }
  destruct Hm; try (apply Hq; [reflexivity|none_of_them]).
  - apply Hq; [|none_of_them]. cbn. case_match; [|done]. by rewrite updp_ne.
  - destruct b; (apply Hq; [done|none_of_them]).
  - destruct b.
    + destruct p; try (apply Hq; [cbn; by rewrite updp_ne|none_of_them]). cbn. rewrite updp_eq, elem_of_app. split; [|done]. intros _. right. by left.
    + apply Hq; [done|none_of_them].
Qed.

Section net.
Context (ra : N) (w : net) (HV : winv ra w).
Lemma status_st n : status w n = x_st (sto w n).
Proof. unfold status. symmetry. apply (reach_state _ _ _ (a_reach (v_act _ _ HV n))). Qed.
Lemma gone_empty n : status w n = AShutDown -> x_sv (sto w n) = ∅ /\ x_cl (sto w n) = ∅.
Proof. rewrite status_st. apply (aok_gone _ _ _ (v_act _ _ HV n)). Qed.
Lemma self_none n : x_sv (sto w n) !! n = None /\ x_cl (sto w n) !! n = None.
Proof. destruct (v_self _ _ HV n) as (? & ? & _). done. Qed.

(** ** Both sides agree *)
Lemma links_agree c s : linked_to s (trace w c) -> linked c (trace w s) /\ status w s <> AShutDown /\ status w c <> AShutDown.
Proof.
  rewrite (linked_to_lk _ _ _ _ (a_reach (v_act _ _ HV c))). intros Hl.
  assert (Hcs : c <> s) by (intros ->; destruct (self_none s) as [E _]; by rewrite E in Hl).
  assert (Hk : exists x, x_cl (sto w s) !! c = Some x /\ live x = true).
  { pose proof (v_pair _ _ HV c s Hcs) as HP. unfold pair_ok in HP. rewrite Hl in HP. inversion HP; subst; try done; eauto. }
  split_and!.
  - by apply (reach_cl _ _ _ (a_reach (v_act _ _ HV s))).
  - intros Hd. destruct (gone_empty _ Hd) as [_ E]. rewrite E in Hk. destruct Hk as (x & Hx & _). done.
  - intros Hd. destruct (gone_empty _ Hd) as [E _]. by rewrite E in Hl.
Qed.
(** When nothing is under way. *)
Lemma cl_exists c s x : x_cl (sto w s) !! c = Some x -> is_Some (w_act w !! s).
Proof. unfold sto. destruct (w_act w !! s); [by eexists|done]. Qed.
Lemma sv_exists c s : lk_of (x_sv (sto w c) !! s) <> LkNo -> is_Some (w_act w !! c).
Proof. unfold sto. destruct (w_act w !! c); [by eexists|done]. Qed.
Lemma quiet_client c s x : quiet w -> x_cl (sto w s) !! c = Some x ->
  (exists id, lk_of (x_sv (sto w c) !! s) = LkIng id /\ x = CPending id) \/
  (lk_of (x_sv (sto w c) !! s) = LkUp /\ (x = COperational \/ (exists k, x = CUnlinking k) /\ s ∈ x_uq (sto w c))).
Proof.
  intros HQ Hx. assert (Hcs : c <> s) by (intros ->; destruct (self_none s) as [_ E]; congruence).
  pose proof (v_pair _ _ HV c s Hcs) as HP. unfold pair_ok in HP. rewrite Hx in HP.
  pose proof (HQ c s (cl_exists _ _ _ Hx)) as Hu. rewrite Hu in HP. cbn in HP.
  assert (Hd : lk_of (x_sv (sto w c) !! s) <> LkNo -> w_ch w s c = []) by (intros H; by apply HQ, (sv_exists c s)).
  inversion HP as [| | | |id E1 E2 E3 E4|id E1 E2 E3 E4|id q E1 E2 E3 E4|E1 E2|q E1 E2 E3 E4|E1 E2 E3 E4 E5| | | |]; try done; try (rewrite Hd in E4 by (rewrite E1; done); done).
  - left. exists id. split; [done|congruence].
  - right. split; [done|]. left. congruence.
  - right. split; [done|]. right. split; [|done]. injection E2 as ->. by eexists.
Qed.
Lemma links_same c s : quiet w -> linked_to s (trace w c) <-> linked c (trace w s).
Proof.
  intros HQ. split; [by intros [? _]%links_agree|]. intros Hl. apply (reach_cl _ _ _ (a_reach (v_act _ _ HV s))) in Hl as (x & Hx & Hv).
  apply (linked_to_lk _ _ _ _ (a_reach (v_act _ _ HV c))). destruct (quiet_client c s x HQ Hx) as [(id & _ & ->)|[? _]]; done.
Qed.

(** ** The end *)
Lemma stuck_of n : status w n = AShuttingDown -> (forall i, ~ owned i (trace w n)) -> names_back (trace w n) -> stuck (sto w n).
Proof.
  intros Hs Ho Hc. rewrite status_st in Hs. apply (a_down (v_act _ _ HV n)); [done| |].
  - by apply (reach_has_none _ _ _ (a_reach (v_act _ _ HV n))).
  - destruct Hc as [Hc|Hc]; [by left|right]. by eapply reach_voted; [apply (a_reach (v_act _ _ HV n))|].
Qed.
Lemma sv_link n a : x_sv (sto w n) !! a <> None -> exists p id, EvLink a p id ∈ trace w n.
Proof.
  intros Ha. pose proof (reach_lk _ a _ _ (a_reach (v_act _ _ HV n))) as Hk. assert (Hn : lk_of (x_sv (sto w n) !! a) <> LkNo) by (apply lk_of_some; by apply not_eq_None_Some).
  revert Hk Hn. generalize (lk_of (x_sv (sto w n) !! a)). clear. induction (trace w n) as [|x tr IH] using rev_ind; intros σ; cbn; [by intros [= <-]|].
  rewrite crun_app. destruct (crun a LkNo tr) as [τ|]; [|done]. cbn. destruct (cstep a τ x) as [υ|] eqn:E; [|done]. intros [= ->] Hn.
  destruct (decide (τ = LkNo)) as [->|Hτ].
  - assert (exists p id, x = EvLink a p id) as (p & id & ->).
    { destruct x; cbn in E; try case_decide; subst; try congruence; eauto. }
    exists p, id. apply elem_of_app. right. by left.
  - destruct (IH τ) as (p & id & Hin); [done|done|]. exists p, id. apply elem_of_app. by left.
Qed.
Lemma all_down : quiet w -> (forall n, is_Some (w_act w !! n) -> status w n = AShuttingDown \/ status w n = AShutDown) ->
  (forall n, status w n = AShuttingDown -> (forall i, ~ owned i (trace w n)) /\ names_back (trace w n)) ->
  (exists h : N -> nat, forall c s p id, EvLink s p id ∈ trace w c -> (h c < h s)%nat) ->
  forall n, is_Some (w_act w !! n) -> status w n = AShutDown \/ status w n = AShuttingDown /\ x_sv (sto w n) = ∅ /\ x_cl (sto w n) = ∅ /\ x_d (sto w n) PRg = false.
Proof.
  intros HQ Hst Hb [h Hh]. assert (HS : forall n, status w n = AShuttingDown -> stuck (sto w n)) by (intros n Hn; destruct (Hb n Hn); by apply stuck_of).
  assert (HE : forall k n, (h n < k)%nat -> x_cl (sto w n) = ∅).
  { induction k as [|k IH]; intros n Hn; [lia|].
    destruct (w_act w !! n) as [nd|] eqn:En; [|unfold sto; by rewrite En]. destruct (Hst n) as [Hs|Hs]; [by eexists| |by apply gone_empty].
    destruct (HS n Hs) as [_ [[H1 H2]|(H1 & _)]]; [|done]. exfalso.
    apply map_choose in H1 as (c & x & Hx).
    assert (Hl : lk_of (x_sv (sto w c) !! n) <> LkNo).
    { destruct (quiet_client c n x HQ Hx) as [(id & E & _)|[E _]]; by rewrite E. }
    assert (Hne : x_sv (sto w c) !! n <> None) by (intros E; by rewrite E in Hl).
    destruct (sv_link c n Hne) as (p & id & Hin). apply Hh in Hin.
    assert (Hcl : x_cl (sto w c) = ∅) by (apply IH; lia).
    destruct (Hst c) as [Hs'|Hs']; [by eapply sv_exists| |destruct (gone_empty _ Hs') as [E _]; by rewrite E in Hne].
    destruct (HS c Hs') as [_ [[? ?]|(_ & E & _)]]; [done|]. by rewrite E in Hne. }
  intros n Hn. destruct (Hst n Hn) as [Hs|Hs]; [|by left]. destruct (HS n Hs) as [H3 [[H1 _]|(H1 & H2 & _)]].
  - destruct H1. eapply HE. exact (Nat.lt_succ_diag_r _).
  - right. done.
Qed.
(** One server, whose clients have no clients. *)
Lemma server_down n : quiet w -> is_Some (w_act w !! n) -> status w n = AShuttingDown -> (forall i, ~ owned i (trace w n)) -> names_back (trace w n) ->
  (exists b, EvState b AOperational ∈ trace w n) ->
  (forall c p id, EvLink n p id ∈ trace w c -> forall a r q, EvLinkReq a r q ∉ trace w c) ->
  x_sv (sto w n) = ∅ /\ x_cl (sto w n) = ∅ /\ x_d (sto w n) PRg = false.
Proof.
  intros HQ Hn Hs Ho Hc Hw Hl. destruct (stuck_of n Hs Ho Hc) as [H4 [[H1 H2]|(H1 & H3 & _)]]; [|done]. exfalso.
  apply map_choose in H1 as (c & x & Hx). destruct (quiet_client c n x HQ Hx) as [(id & E & ->)|[E [-> |[[k ->] Hu]]]].
  - by apply (a_open (v_act _ _ HV n) Hw c id).
  - by apply (H2 c).
  - assert (Hne : x_sv (sto w c) !! n <> None) by (intros E'; by rewrite E' in E).
    destruct (sv_link c n Hne) as (p & id & Hin). by apply (a_held (v_act _ _ HV c) (Hl c p id Hin)) in Hu.
Qed.
Lemma empty_unlinked n : x_sv (sto w n) = ∅ -> x_cl (sto w n) = ∅ -> unlinked w n.
Proof.
  intros E1 E2 a. rewrite (linked_to_lk _ _ _ _ (a_reach (v_act _ _ HV n))), E1. split; [done|].
  intros (x & Hx & _)%(reach_cl _ _ _ (a_reach (v_act _ _ HV n))). by rewrite E2 in Hx.
Qed.
Context (cfg : N -> plug -> list uact) (unl : N -> bool) (HC : forall n, prudent_cfg ra (cfg n)).
Lemma last_one n : is_Some (w_act w !! n) -> (status w n = AShuttingDown -> forall i, ~ owned i (trace w n)) ->
  status w n = AShutDown \/ status w n = AShuttingDown /\ x_sv (sto w n) = ∅ /\ x_cl (sto w n) = ∅ /\ x_d (sto w n) PRg = false ->
  unlinked w n /\ finishes cfg ra unl w n.
Proof.
  intros [nd Hn] Ho Hs. pose proof (v_act _ _ HV n) as HA. unfold sto, trace in HA. rewrite Hn in HA. split.
  - destruct Hs as [Hs|(_ & ? & ? & _)]; apply empty_unlinked; try done; by apply gone_empty.
  - destruct (safe_step (cfg n) ra (unl n) (HC n) OUnsubscribed _ _ HA I) as (s' & e & He).
    unfold finishes. cbn [nstep]. rewrite Hn. cbn [plain]. unfold nact. rewrite He. cbn [rbind]. eexists _, _. split; [done|].
    unfold status, trace. cbn [w_act]. rewrite lookup_insert. cbn [w_ev].
    destruct (aok_step (cfg n) ra (unl n) (HC n) OUnsubscribed _ _ _ _ HA I I He) as [HA' _]. rewrite <- (reach_state _ _ _ (a_reach HA')).
    destruct Hs as [Hs|(Hs & Hv & Hc & Hg)]; rewrite status_st in Hs; unfold sto in *; rewrite Hn in *.
    + by destruct (dead_step _ _ _ _ _ _ _ Hs He) as [-> _].
    + eapply last_step; [exact Hs| |exact Hc|exact Hv|exact Hg|exact He]. apply (reach_has_none _ _ _ (a_reach HA)). intros i Hi. apply (Ho ltac:(rewrite status_st; unfold sto; by rewrite Hn) i). unfold trace. by rewrite Hn.
Qed.
End net.
