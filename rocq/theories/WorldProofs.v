(** Theorems about a tree of supervisors with actors. *)
From stdpp Require Import base list gmap.
From Verif Require Import Base Prog StateModel ChildMgrModel ChildMgrSpec ChildMgrProofs ChildMgrTrace ChildMgrFacts FamilyModel FamilySpec FamilySteps FamilyFold FamilyInv FamilyChild FamilyProofs
  ActorModel ActorSpec ActorSafeSpec ActorReach NetModel NetSpec NetSettle NetInv NetRun NetProofs SystemModel SystemSpec SystemSteps SystemFam SystemInv SystemProofs
  TreeModel TreeSpec TreeSteps TreeInv TreeNode TreeProofs TreeFacts WorldModel WorldSpec WorldTree WorldInv.
Open Scope N_scope.

Section proofs.
Context (pol : list N -> spolicy) (sync : list N -> bool) (sup_at : list N -> N -> bool).
Context (cfg : N -> plug -> list uact) (ra : N) (unl : N -> bool) (HC : forall n, prudent_cfg ra (cfg n)).
Notation tstep := (tstep pol sync).
Notation wstep := (NetModel.nstep cfg ra unl).
Notation zstep := (zstep pol sync sup_at cfg ra unl).
Notation zrule := (zrule pol sync sup_at cfg ra unl).
Notation zinv := (zinv pol sync sup_at cfg ra unl).
Notation good := (tinv pol sync (fun _ => False)).

Lemma world_safe ops : guarded zstep zrule zinit ops -> exists z ev, run zstep zinit ops = Ok (z, ev) /\ zinv z ev.
Proof. intros Hg. apply (run_safe_ev zstep zrule zinv (zstep_inv pol sync sup_at cfg ra unl HC) ops zinit [] (zinv_init pol sync sup_at cfg ra unl) Hg). Qed.
Lemma world_reach ops z ev : guarded zstep zrule zinit ops -> run zstep zinit ops = Ok (z, ev) -> zinv z ev.
Proof. intros Hg H. destruct (world_safe ops Hg) as (y1 & e1 & H1 & Hi). rewrite H in H1. by inversion H1; subst. Qed.

Section reached.
Context (z : world) (ev : list (N * aev)) (HI : zinv z ev).
Notation t := (z_t z).
Notation w := (z_w z).
Lemma world_net : winv ra w.
Proof. destruct (zi_w _ _ _ _ _ _ _ _ HI) as (nops & Hg & Hr). destruct (net_safe cfg ra unl HC nops Hg) as (w1 & ev1 & Hr1 & Hw). congruence. Qed.
Lemma world_good : good t.
Proof. destruct (zi_t _ _ _ _ _ _ _ _ HI) as (tops & tev & Hg & Hr). by eapply tree_good. Qed.
Lemma world_pair n nd c : sup_at n c = false -> t !! n = Some nd -> ECreated c ∈ n_ev nd ->
  c <> 0 /\ exists ch a, kids (n_fam nd) !! c = Some ch /\ w_act w !! who n c = Some a /\ pair (n_fam nd) c ch (w_s a) (w_ev a) /\ ch_state ch = status w (who n c).
Proof.
  intros Hs Hn Hc. pose proof (zi_c _ _ _ _ _ _ _ _ HI) as HZ. destruct (created_kid pol sync t n nd c world_good Hn Hc) as (Hc0 & _ & ch & Hk). split; [done|].
  destruct (proj2 (zc_born _ _ _ _ HZ n c)) as [a Ha]; [split; eauto|]. exists ch, a. pose proof (zc_pair _ _ _ _ HZ n nd c ch a ltac:(done) Hs Hn Hk Ha) as P.
  split_and!; try done. rewrite (status_st ra _ world_net). unfold sto. rewrite Ha. apply P.
Qed.
Lemma world_agree n nd c : sup_at n c = false -> t !! n = Some nd -> ECreated c ∈ n_ev nd -> is_Some (w_act w !! who n c) /\ FamilySpec.state_of (n_fam nd) c = Some (status w (who n c)).
Proof. intros Hs Hn Hc. destruct (world_pair n nd c Hs Hn Hc) as (_ & ch & a & Hk & Hw & _ & E). split; [by eauto|]. unfold FamilySpec.state_of. unfold kids in Hk. rewrite Hk. cbn. by f_equal. Qed.
Lemma world_born k : is_Some (w_act w !! k) <-> exists n c, k = who n c /\ actor_at sup_at t n c.
Proof.
  pose proof (zi_c _ _ _ _ _ _ _ _ HI) as HZ. split.
  - intros H. destruct (zc_only _ _ _ _ HZ k H) as (n & c & ->). exists n, c. split; [done|]. by apply (zc_born _ _ _ _ HZ).
  - intros (n & c & -> & H). by apply (zc_born _ _ _ _ HZ).
Qed.
Lemma world_sups n nd c : t !! n = Some nd -> ECreated c ∈ n_ev nd -> is_Some (t !! (c :: n)) <-> sup_at n c = true.
Proof. intros Hn Hc. pose proof (zi_c _ _ _ _ _ _ _ _ HI) as HZ. split; [apply (zc_node _ _ _ _ HZ)|by apply (zc_sup _ _ _ _ HZ n nd c)]. Qed.
Lemma world_asked n nd c : sup_at n c = false -> t !! n = Some nd -> settled (n_fam nd) -> ECreated c ∈ n_ev nd ->
  EShutReq c ∈ n_ev nd <-> status w (who n c) = AShuttingDown \/ status w (who n c) = AShutDown.
Proof.
  intros Hsup Hn Hs Hc. destruct (te_node _ _ _ _ world_good n nd Hn) as [G R _]. rewrite (fam_asked _ _ _ _ _ _ c G R Hs Hc). unfold shutting. rewrite (proj2 (world_agree n nd c Hsup Hn Hc)).
  split; [intros (st & [= <-] & ?); done|by eauto].
Qed.
Lemma world_removed n nd c : sup_at n c = false -> t !! n = Some nd -> settled (n_fam nd) -> ECreated c ∈ n_ev nd -> removed c (n_ev nd) <-> status w (who n c) = AShutDown.
Proof.
  intros Hsup Hn Hs Hc. destruct (te_node _ _ _ _ world_good n nd Hn) as [G R _]. rewrite (fam_removed _ _ _ _ _ _ c G R Hs Hc), (proj2 (world_agree n nd c Hsup Hn Hc)). split; congruence.
Qed.
Lemma world_unlinked k : status w k = AShutDown -> unlinked w k.
Proof. intros H. destruct (gone_empty ra _ world_net k H). by apply (empty_unlinked ra _ world_net). Qed.
(** A supervisor has agreed to end: no actor below is left. *)
Lemma left_removed n nd c : t !! n = Some nd -> f_phase (n_fam nd) <> PWorking -> ECreated c ∈ n_ev nd -> removed c (n_ev nd).
Proof.
  intros Hn Hp Hc. pose proof (te_node _ _ _ _ world_good n nd Hn) as Hk. destruct (x_left _ _ _ (no_x _ _ _ _ Hk) Hp) as [Hi _]. pose proof (ai_h _ _ _ (fi_all _ _ (no_fin _ _ _ _ Hk))) as Hh.
  destruct (h_live _ _ Hh c Hc) as [(i & Hm & Ha)|?]; [|done]. destruct (h_next _ _ Hh c Hc) as [Hc0 _]. destruct (Hi c i Hm Hc0). congruence.
Qed.
Lemma world_order n nd l m c : t !! n = Some nd -> EVoteShutdown true ∈ n_ev nd -> t !! (l ++ n) = Some m -> ECreated c ∈ n_ev m -> sup_at (l ++ n) c = false ->
  status w (who (l ++ n) c) = AShutDown /\ unlinked w (who (l ++ n) c) /\ removed c (n_ev m).
Proof.
  intros Hn Hv Hm Hc Hs. pose proof world_good as Ht. pose proof (te_node _ _ _ _ Ht n nd Hn) as Hok.
  destruct (subtree pol sync t n nd Ht Hn (x_vote _ _ _ (no_x _ _ _ _ Hok) Hv) l m Hm) as [Hp _].
  pose proof (left_all _ _ _ _ c (te_node _ _ _ _ Ht _ _ Hm) Hp Hc) as Hst. rewrite (proj2 (world_agree _ m c Hs Hm Hc)) in Hst. injection Hst as Hst.
  split_and!; [done|by apply world_unlinked|by eapply left_removed].
Qed.

(** ** The end *)
Lemma asked_kids n nd c : t !! n = Some nd -> asked_all nd -> ECreated c ∈ n_ev nd ->
  (exists st, FamilySpec.state_of (n_fam nd) c = Some st /\ (st = AShutDown \/ (st = AShuttingDown /\ settled (n_fam nd)))) /\
  (forall m, t !! (c :: n) = Some m -> sup_state m = AShuttingDown \/ sup_state m = AShutDown).
Proof.
  intros Hn [Hv|[Hs (ev1 & b & ev2 & E & Hno)]] Hc; pose proof world_good as Ht.
  - pose proof (left_all _ _ _ _ c (te_node _ _ _ _ Ht n nd Hn) (x_vote _ _ _ (no_x _ _ _ _ (te_node _ _ _ _ Ht n nd Hn)) Hv) Hc) as Hst. split; [by eauto|].
    intros m Hm. rewrite (lk_state _ _ _ _ _ _ (good_link _ _ _ _ _ _ _ Ht Hm Hn)) in Hst. injection Hst as ->. by right.
  - destruct (zi_t _ _ _ _ _ _ _ _ HI) as (tops & tev & Hg & Hr).
    assert (Hc1 : ECreated c ∈ ev1). { rewrite E in Hc. apply elem_of_app in Hc as [?|[?|?]%elem_of_cons]; [done|done|]. by destruct (Hno c). }
    destruct (tree_down pol sync tops t tev n nd ev1 b ev2 c (conj Hg Hr) Hn Hs E Hc1) as [(st & Hst & Hx) Hm]. split; [|done]. exists st. split; [done|]. destruct Hx as [->| ->]; auto.
Qed.
Lemma all_shut root : t !! [] = Some root -> sup_state root = AShuttingDown -> (forall n nd, t !! n = Some nd -> sup_state nd = AShuttingDown -> asked_all nd) ->
  forall n nd, t !! n = Some nd -> (sup_state nd = AShuttingDown /\ asked_all nd) \/ (sup_state nd = AShutDown /\ forall c, ECreated c ∈ n_ev nd -> FamilySpec.state_of (n_fam nd) c = Some AShutDown).
Proof.
  intros Hr Hrs Hall n. induction n as [|c n IH]; intros nd Hn.
  - rewrite Hr in Hn. injection Hn as <-. left. split; [done|]. by eapply Hall.
  - pose proof world_good as Ht. destruct (te_par _ _ _ _ Ht c n nd Hn) as (pd & Hp & Hc).
    assert (Hst : sup_state nd = AShuttingDown \/ sup_state nd = AShutDown).
    { destruct (IH pd Hp) as [[_ Ha]|[_ Ha]]; [by apply (asked_kids n pd c Hp Ha Hc)|]. right. specialize (Ha c Hc). rewrite (lk_state _ _ _ _ _ _ (good_link _ _ _ _ _ _ _ Ht Hn Hp)) in Ha. by injection Ha. }
    destruct Hst as [Hst|Hst]; [left; split; [done|by eapply Hall]|right; split; [done|]]. intros d Hd. eapply left_all; [by eapply te_node| |done]. by rewrite (down_left _ _ _ _ Ht _ Hn ltac:(done) Hst).
Qed.
Lemma world_down : quiet w -> (forall n nd c, t !! n = Some nd -> sup_at n c = false -> ECreated c ∈ n_ev nd ->
    status w (who n c) = AShutDown \/ (status w (who n c) = AShuttingDown /\ settled (n_fam nd))) ->
  (forall k, status w k = AShuttingDown -> (forall i, ~ owned i (trace w k)) /\ names_back (trace w k)) ->
  (exists h : N -> nat, forall c s p id, EvLink s p id ∈ trace w c -> (h c < h s)%nat) ->
  forall n c, actor_at sup_at t n c -> status w (who n c) = AShutDown /\ unlinked w (who n c).
Proof.
  intros HQ Hall Hfree Hh n c [Hsup (nd & Hn & Hc)]. pose proof world_net as HV.
  assert (Hd : status w (who n c) = AShutDown); [|split; [done|by apply world_unlinked]].
  destruct (Hall n nd c Hn Hsup Hc) as [?|[Hst Hs]]; [done|].
  destruct (all_down ra _ HV HQ) with (n := who n c) as [?|(_ & E1 & E2 & _)]; try done.
  - intros k Hk. apply world_born in Hk as (m & d & -> & [Hs' (md & Hm & Hd)]). destruct (Hall m md d Hm Hs' Hd) as [?|[? _]]; auto.
  - apply world_born. exists n, c. split; [done|]. split; eauto.
  - exfalso. destruct (Hfree (who n c) Hst) as [F1 F2]. destruct (stuck_of ra _ HV (who n c) Hst F1 F2) as [_ [[H1 _]|(_ & _ & Hp)]]; [done|].
    destruct (world_pair n nd c Hsup Hn Hc) as (Hc0 & ch & a & Hk & Ha & P & E). unfold sto in Hp. rewrite Ha in Hp.
    destruct (te_node _ _ _ _ world_good n nd Hn) as [G R _]. destruct (settled_child _ _ _ _ _ _ c G R Hs Hc) as (ch1 & Hk1 & _ & PC & _ & HD).
    unfold kids in Hk. rewrite Hk1 in Hk. injection Hk as ->. pose proof (p_dn _ _ _ _ _ PC) as Hdn. rewrite HD, decide_False in Hdn by done.
    assert (Hin : c ∈ f_bye (n_fam nd)).
    { destruct Hdn as [(H1 & _)|[(H1 & _)|[(_ & _ & _ & H4)|(_ & _ & H3 & _)]]]; [| | |done].
      - destruct H1. rewrite E, Hst. cbn. lia.
      - destruct H1. rewrite E, Hst. cbn. lia.
      - exfalso. destruct H4 as [?|[[_ ?]|(_ & _ & ?)]]; done. }
    apply P in Hin. congruence.
Qed.
Lemma world_ends root : quiet w -> t !! [] = Some root -> sup_state root = AShuttingDown -> (forall n nd, t !! n = Some nd -> sup_state nd = AShuttingDown -> asked_all nd) ->
  (forall k, status w k = AShuttingDown -> (forall i, ~ owned i (trace w k)) /\ names_back (trace w k)) ->
  (exists h : N -> nat, forall c s p id, EvLink s p id ∈ trace w c -> (h c < h s)%nat) ->
  forall n nd c, sup_at n c = false -> t !! n = Some nd -> ECreated c ∈ n_ev nd -> status w (who n c) = AShutDown /\ unlinked w (who n c) /\ removed c (n_ev nd).
Proof.
  intros HQ Hr Hrs Hall Hfree Hh n nd c Hsup Hn Hc.
  assert (H : status w (who n c) = AShutDown /\ unlinked w (who n c)).
  { apply world_down; try done; [|split; eauto]. clear n nd c Hsup Hn Hc. intros n nd c Hn Hsup Hc. destruct (world_agree n nd c Hsup Hn Hc) as [_ E].
    destruct (all_shut root Hr Hrs Hall n nd Hn) as [[_ Ha]|[_ Ha]].
    - destruct (asked_kids n nd c Hn Ha Hc) as [(st & Hst & Hx) _]. rewrite E in Hst. injection Hst as <-. done.
    - left. specialize (Ha c Hc). rewrite E in Ha. by injection Ha. }
  destruct H as [H1 H2]. split_and!; [done|done|].
  destruct (all_shut root Hr Hrs Hall n nd Hn) as [[_ [Hv|[Hs _]]]|[Hd _]].
  - eapply left_removed; [done| |done]. eapply x_vote; [|done]. by apply (te_node _ _ _ _ world_good n nd Hn).
  - by apply (world_removed n nd c Hsup Hn Hs Hc).
  - destruct n as [|d n]; [rewrite Hr in Hn; congruence|]. eapply left_removed; [done| |done]. by rewrite (down_left _ _ _ _ world_good _ Hn ltac:(done) Hd).
Qed.
(** A supervisor all of whose children have ended agrees to end. *)
Lemma world_votes n nd : t !! n = Some nd -> sup_state nd = AShuttingDown -> f_phase (n_fam nd) = PWorking -> (forall c, ECreated c ∈ n_ev nd -> removed c (n_ev nd)) ->
  (forall a i, cm_map (f_cm (n_fam nd)) !! a = Some i -> ci_actor i = None -> ci_active i = false) ->
  exists z' e nd', zstep z (ZTree (TOp n FVote)) = Ok (z', e) /\ z_t z' !! n = Some nd' /\ EVoteShutdown true ∈ n_ev nd'.
Proof.
  intros Hn Hst Hph Hrem Hsp. pose proof world_good as Ht. destruct (fam_votes (hp n) (pol n) (sync n) _ _ (no_fin _ _ _ _ (te_node _ _ _ _ Ht n nd Hn)) Hst Hph Hrem Hsp) as (f' & e0 & Hv & He).
  destruct (step_good pol sync t (TOp n FVote) Ht) as (t' & ce & Hs & Ht'); [cbn; by rewrite Hn|].
  pose proof (op_stepped pol sync t n FVote t' ce Ht ltac:(done) ltac:(by rewrite Hn) Hs) as HD.
  destruct (stepped_world pol sync sup_at cfg ra unl HC t t' w n FVote ce nd Ht Ht' (zi_c _ _ _ _ _ _ _ _ HI) HD Hn) as (t2 & w2 & Hbi & _ & _ & _ & Hkeep & _).
  cbn [WorldModel.zstep]. rewrite Hn. cbn [by_child handed]. rewrite Hs. cbn [rbind]. rewrite Hbi. cbn [rbind]. eexists _, _.
  assert (Hnd : exists nd', t' !! n = Some nd' /\ EVoteShutdown true ∈ n_ev nd').
  { cbn -[TreeModel.local upcalls downcall] in Hs. rewrite Hn in Hs. cbn -[TreeModel.local upcalls] in Hs. unfold TreeModel.local in Hs. rewrite Hn in Hs. unfold TreeModel.nstep in Hs. rewrite Hv in Hs. cbn [rbind] in Hs.
    destruct (upcalls pol sync _ n e0) as [t3| |] eqn:Hu; cbn [rbind] in Hs; [|done..]. injection Hs as -> ->.
    exists (Node f' (n_ops nd ++ [FVote]) (n_ev nd ++ ce)). cbn. split; [|apply elem_of_app; by right].
    destruct n as [|c p].
    - assert (E3 : forall u, upcalls pol sync u [] ce = Ok t' -> t' = u). { clear. induction ce as [|x e1 IH]; intros u Hu; cbn in Hu; [by injection Hu|]. destruct x; cbn in Hu; auto. } rewrite (E3 _ Hu). apply t_eq.
    - destruct (te_par _ _ _ _ Ht c p nd Hn) as (pd & Hp & Hcr). destruct (created_kid pol sync t p pd c Ht Hp Hcr) as (Hc0 & _).
      destruct (upcalls_told pol sync c p ce Hc0 _ t' Hu) as (U1 & _). rewrite U1 by apply cons_ne. apply t_eq. }
  destruct Hnd as (nd' & Hn' & Hvv). exists nd'. split; [done|]. split; [by apply Hkeep|done].
Qed.
(** Of the supervisors of a kind one is deepest. *)
Lemma deepest (P : node -> bool) n0 nd0 : t !! n0 = Some nd0 -> P nd0 = true -> exists n nd, t !! n = Some nd /\ P nd = true /\ forall c m, t !! (c :: n) = Some m -> P m = false.
Proof.
  assert (Hbound : exists k, forall x y, t !! x = Some y -> (length x <= k)%nat).
  { exists (list_max (length <$> (map_to_list t).*1)). intros x y Hx. assert (Hle : Forall (fun j => (j <= list_max (length <$> (map_to_list t).*1))%nat) (length <$> (map_to_list t).*1)) by (by apply list_max_le).
    rewrite list.Forall_forall in Hle. apply Hle. apply elem_of_list_fmap. exists x. split; [done|]. apply elem_of_list_fmap. exists (x, y). split; [done|]. by apply elem_of_map_to_list. }
  destruct Hbound as [k Hk]. remember (k - length n0)%nat as r eqn:Er. revert n0 nd0 Er. induction r as [r IH] using lt_wf_ind. intros n nd Er Hn HP.
  destruct (existsb (fun '(x, y) => P y && match x with _ :: q => bool_decide (q = n) | [] => false end) (map_to_list t)) eqn:E.
  - apply existsb_exists in E as ([x y] & Hin & Hxy). apply elem_of_list_In, elem_of_map_to_list in Hin. apply andb_true_iff in Hxy as [Hy Hx]. destruct x as [|c q]; [done|]. apply bool_decide_eq_true in Hx as ->.
    eapply (IH (k - length (c :: n))%nat); [|done|exact Hin|done]. specialize (Hk _ _ Hin). cbn in *. lia.
  - exists n, nd. split_and!; try done. intros c m Hm. destruct (P m) eqn:Em; [|done]. exfalso. apply not_true_iff_false in E. apply E, existsb_exists. exists (c :: n, m). split.
    + by apply elem_of_list_In, elem_of_map_to_list.
    + by rewrite Em, bool_decide_true.
Qed.
(** While not all supervisors have agreed to end, one of them does when it is asked. *)
Lemma world_progress root n0 nd0 : quiet w -> t !! [] = Some root -> sup_state root = AShuttingDown -> (forall n nd, t !! n = Some nd -> sup_state nd = AShuttingDown -> asked_all nd) ->
  (forall k, status w k = AShuttingDown -> (forall i, ~ owned i (trace w k)) /\ names_back (trace w k)) ->
  (exists h : N -> nat, forall c s p id, EvLink s p id ∈ trace w c -> (h c < h s)%nat) ->
  (forall n nd a i, t !! n = Some nd -> cm_map (f_cm (n_fam nd)) !! a = Some i -> ci_actor i = None -> ci_active i = false) ->
  (forall n nd, t !! n = Some nd -> n <> [] -> f_phase (n_fam nd) <> PWorking -> sup_state nd = AShutDown) ->
  t !! n0 = Some nd0 -> f_phase (n_fam nd0) = PWorking ->
  exists n nd z' e nd', t !! n = Some nd /\ f_phase (n_fam nd) = PWorking /\ zstep z (ZTree (TOp n FVote)) = Ok (z', e) /\ z_t z' !! n = Some nd' /\ EVoteShutdown true ∈ n_ev nd'.
Proof.
  intros HQ Hr Hrs Hall Hfree Hh Hsp Hend Hn0 Hp0. pose proof world_good as Ht.
  destruct (deepest (fun nd => bool_decide (f_phase (n_fam nd) = PWorking)) n0 nd0 Hn0) as (n & nd & Hn & Hp%bool_decide_eq_true & Hdeep); [by apply bool_decide_eq_true|].
  assert (Hst : sup_state nd = AShuttingDown /\ asked_all nd).
  { destruct (all_shut root Hr Hrs Hall n nd Hn) as [?|[Hd _]]; [done|]. destruct n as [|c n]; [rewrite Hr in Hn; congruence|]. rewrite (down_left _ _ _ _ Ht _ Hn ltac:(done) Hd) in Hp. done. }
  destruct Hst as [Hst [Hv|[Hs Hasked]]]; [by destruct (x_vote _ _ _ (no_x _ _ _ _ (te_node _ _ _ _ Ht n nd Hn)) Hv)|].
  destruct (world_votes n nd Hn Hst Hp) as (z' & e & nd' & H1 & H2 & H3); [| |eauto 10].
  - intros c Hc. destruct (sup_at n c) eqn:Hsup; [|by apply (world_ends root HQ Hr Hrs Hall Hfree Hh n nd c Hsup Hn Hc)].
    destruct (proj2 (world_sups n nd c Hn Hc) Hsup) as [m Hm]. destruct (te_node _ _ _ _ Ht n nd Hn) as [G R _]. apply (fam_removed _ _ _ _ _ _ c G R Hs Hc).
    rewrite (lk_state _ _ _ _ _ _ (good_link _ _ _ _ _ _ _ Ht Hm Hn)). f_equal. apply (Hend (c :: n)); [done|done|]. specialize (Hdeep c m Hm). by apply bool_decide_eq_false in Hdeep.
  - intros a i. by apply Hsp with n.
Qed.
End reached.
End proofs.
