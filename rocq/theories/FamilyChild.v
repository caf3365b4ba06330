(** The steps of the children of an orderly family. *)
From stdpp Require Import base list gmap.
From Verif Require Import Base ChildMgrModel ChildMgrSpec ChildMgrProofs ChildMgrTrace ChildMgrFacts FamilyModel FamilySpec FamilySteps FamilyFold FamilyInv.
Open Scope N_scope.

(** One child [c0] takes a step: it may take [p] from the queue and put [l] into it. *)
Record moved (c0 : N) (ch' : child) (s s' : fstate) : Prop := {
  mv_cm : exists M, f_cm s' = set_children (f_cm s) M /\ M !! c0 = Some ch' /\ forall c, c <> c0 -> M !! c = cm_children (f_cm s) !! c;
  mv_q : exists p q l, f_q s = p ++ q /\ f_q s' = q ++ l /\ (p = [] \/ p = [MInitReq c0] \/ p = [MShutReq c0] \/ p = [MBye c0]) /\
     forall m, m ∈ l -> upm c0 m = true \/ m = MTrigger 0 \/ m = MBye c0;
  mv_other : forall c, c <> c0 -> upl s' c = upl s c /\ downl s' c = downl s c;
  mv_up : forall m, m ∈ upl s' c0 -> upm c0 m = true \/ m = MTrigger 0;
  mv_down : forall m, m ∈ downl s' c0 -> m = MInitReq c0 \/ m = MShutReq c0 \/ m = MBye c0;
  mv_local : c0 ∉ f_foreign s -> upl s' c0 = [] /\ downl s' c0 = [];
  mv_foreign : f_foreign s' = f_foreign s;
  mv_init : f_init s' = f_init s;
  mv_shut : f_shut s' = f_shut s;
  mv_phase : f_phase s' = f_phase s;
  mv_bye : forall c, c <> c0 -> (c ∈ f_bye s' <-> c ∈ f_bye s)
}.

Lemma child_inv s ev c0 ch' s' : rinv HNone s ev -> c0 <> 0 -> known s c0 -> moved c0 ch' s s' -> pc HNone s' ev c0 ch' -> rinv HNone s' ev.
Proof.
  intros [Rcl Rloc Rkn Rcr Rch Rul Rdl Rf0 Rct Rto Rent Rself Rsh Rio Rcq Rsq Run Rrq Rb0 Rz Rh] Hc00 Hkn0
    [(M & Ecm & HM0 & HM) (p & q & l & Eq & Eq' & Hp & Hl) Hoth Hup Hdn Hloc EF EI ES EP EB] Hpc.
  assert (Hp' : forall m, m ∈ p -> m = MInitReq c0 \/ m = MShutReq c0 \/ m = MBye c0).
  { intros m Hm. destruct Hp as [->|[->|[->| ->]]]; [by apply elem_of_nil in Hm|apply elem_of_list_singleton in Hm; tauto..]. }
  assert (Em : cm_map (f_cm s') = cm_map (f_cm s)) by (by rewrite Ecm).
  assert (En : cm_next (f_cm s') = cm_next (f_cm s)) by (by rewrite Ecm).
  assert (Est : cm_state (f_cm s') = cm_state (f_cm s)) by (by rewrite Ecm).
  assert (Eun : cm_unsub (f_cm s') = cm_unsub (f_cm s)) by (by rewrite Ecm).
  assert (Eso : cm_shutout (f_cm s') = cm_shutout (f_cm s)) by (by rewrite Ecm).
  assert (Eio : cm_initout (f_cm s') = cm_initout (f_cm s)) by (by rewrite Ecm).
  assert (Ecq : cm_createq (f_cm s') = cm_createq (f_cm s)) by (by rewrite Ecm).
  assert (Esq : cm_spawnq (f_cm s') = cm_spawnq (f_cm s)) by (by rewrite Ecm).
  assert (Ech : cm_children (f_cm s') = M) by (by rewrite Ecm). clear Ecm.
  assert (Hch : forall c, c <> c0 -> cm_children (f_cm s') !! c = cm_children (f_cm s) !! c) by (intros c Hc; rewrite Ech; auto).
  assert (Hkn : forall c, known s' c <-> known s c).
  { intros c. unfold known. destruct (decide (c = c0)) as [->|Hne]; [|by rewrite Hch]. rewrite Ech, HM0. split; [done|by eexists]. }
  assert (Hq : forall m, m ∈ f_q s -> m ∈ p \/ m ∈ f_q s').
  { intros m Hm. rewrite Eq in Hm. rewrite Eq', elem_of_app. apply elem_of_app in Hm as [?|?]; tauto. }
  assert (Hq' : forall m, m ∈ f_q s' -> m ∈ f_q s \/ upm c0 m = true \/ m = MTrigger 0 \/ m = MBye c0).
  { intros m Hm. rewrite Eq' in Hm. rewrite Eq, elem_of_app. apply elem_of_app in Hm as [?|Hm]; [tauto|]. right. auto. }
  assert (Hnoc : forall c m, c <> c0 -> c <> 0 -> (upm c0 m = true \/ m = MTrigger 0 \/ m = MBye c0 \/ m = MInitReq c0 \/ m = MShutReq c0) -> upm c m = false /\ dnm c m = false).
  { intros c m Hc Hc1 Hm. destruct Hm as [Hm|[->|[->|[->| ->]]]]; cbn [upm dnm]; try (split; try done; apply N.eqb_neq; congruence).
    destruct m; cbn in Hm |- *; try done; apply N.eqb_eq in Hm; subst; split; try done; apply N.eqb_neq; congruence. }
  assert (HU : forall c, c <> c0 -> c <> 0 -> UP s' c = UP s c).
  { intros c Hc Hc1. unfold UP. destruct (Hoth c Hc) as [-> _]. rewrite Eq, Eq', !List.filter_app.
    rewrite (filter_none (upm c) p), (filter_none (upm c) l), app_nil_r; [done|..].
    - intros m Hm. apply (Hnoc c); [done..|]. apply Hl in Hm. clear -Hm. tauto.
    - intros m Hm. apply (Hnoc c); [done..|]. apply Hp' in Hm. clear -Hm. tauto. }
  assert (HD : forall c, c <> c0 -> c <> 0 -> DN s' c = DN s c).
  { intros c Hc Hc1. unfold DN. destruct (Hoth c Hc) as [_ ->]. rewrite Eq, Eq', !List.filter_app.
    rewrite (filter_none (dnm c) p), (filter_none (dnm c) l), app_nil_r; [done|..].
    - intros m Hm. apply (Hnoc c); [done..|]. apply Hl in Hm. clear -Hm. tauto.
    - intros m Hm. apply (Hnoc c); [done..|]. apply Hp' in Hm. clear -Hm. tauto. }
  assert (Hlo : forall m, m ∈ l -> match m with MTrigger _ | MInitResp _ _ | MShutResp _ => True | MBye c => c = c0 | _ => False end).
  { intros m Hm. destruct (Hl m Hm) as [Hx|[->| ->]]; [|done..]. by destruct m. }
  assert (Hlz : MShutResp 0 ∉ l). { intros Hm. destruct (Hl _ Hm) as [Hx|[Hx|Hx]]; [|done..]. change ((0 =? c0) = true) in Hx. apply N.eqb_eq in Hx. congruence. }
  split; rewrite ?EF, ?EI, ?ES, ?EP, ?Em, ?En, ?Eun, ?Eso, ?Eio, ?Ecq, ?Esq; try done.
  - intros c Hc Hc1. rewrite Hkn in Hc. assert (Hne : c <> c0) by (by intros ->). destruct (Rcl c Hc Hc1) as (B1 & B2 & B3 & B4 & B5 & B6 & B7).
    destruct (Hoth c Hne) as [-> ->]. rewrite EF, EI, ES, EB by done. split_and!; try done.
    intros m Hm. apply Hq' in Hm as [Hm|Hm]; [by apply B1|]. apply Hnoc; [done..|]. clear -Hm. tauto.
  - intros c. rewrite EF. destruct (decide (c = c0)) as [->|Hne]; [done|]. destruct (Hoth c Hne) as [-> ->]. apply Rloc.
  - intros c. rewrite Hkn. apply Rkn.
  - intros c. rewrite Hkn. apply Rcr.
  - intros c ch Hc1 Hc. destruct (decide (c = c0)) as [->|Hne]; [rewrite Ech, HM0 in Hc; by inversion Hc; subst|].
    rewrite Hch in Hc by done. destruct (Rch c ch Hc1 Hc) as [P1 P2 P3 P4 P5 P6 P7 P8].
    split; rewrite ?HU, ?HD, ?Eun, ?Eso, ?EF, ?EI, ?Est, ?EB by done; try done.
    + eapply dnok_mono; [..|exact P1]; try done. by apply EB.
    + intros Hu. destruct (P5 Hu) as (T1 & T2 & T3). split_and!; try done. intros Hh. destruct (Hq _ (T3 Hh)) as [Hx|?]; [|done].
      by destruct (Hp' _ Hx) as [?|[?|?]].
  - intros c m. destruct (decide (c = c0)) as [->|Hne]; [apply Hup|]. destruct (Hoth c Hne) as [-> _]. apply Rul.
  - intros c m. destruct (decide (c = c0)) as [->|Hne]; [apply Hdn|]. destruct (Hoth c Hne) as [_ ->]. apply Rdl.
  - intros c Hc a b Hab Hb. rewrite Eq' in Hab. assert (Hlc : forall m, m ∈ l -> m <> MCreate c) by (intros m Hm ->; by apply Hlo in Hm).
    apply app_eq_inv in Hab as [(k & H1 & H2)|(k & H1 & H2)].
    + destruct k as [|m k].
      * cbn in H2. apply (Hlc (MCreate c)); [|done]. rewrite <-H2. by right.
      * cbn in H2. inversion H2; subst m b. apply elem_of_app in Hb as [Hb|Hb]; [|by apply Hlc in Hb].
        apply (Rct c Hc (p ++ a) k); [|done]. by rewrite Eq, H1, (assoc_L (++)).
    + apply (Hlc (MCreate c)); [|done]. rewrite H2. apply elem_of_app. right. by right.
  - destruct Rto as (t & r & Tq & T1 & T2).
    assert (Hln : Forall no_to l) by (apply Forall_forall; intros m Hm; apply Hlo in Hm; by destruct m).
    destruct p as [|m p].
    + exists t, (r ++ l). cbn in Eq. rewrite Eq', <-Eq, Tq, (assoc_L (++)). split_and!; [done..|]. by apply Forall_app.
    + assert (t = []) as ->.
      { destruct t as [|m' t]; [done|]. exfalso. rewrite Eq in Tq. cbn in Tq. inversion Tq; subst. inversion T1; subst. destruct (Hp' m') as [->|[->| ->]]; [left|done..]. }
      cbn in Tq. exists [], (q ++ l). cbn. rewrite Eq'. split_and!; [done..|]. apply Forall_app. split; [|done]. rewrite <-Tq, Eq in T2. by apply Forall_app in T2 as [_ ?].
  - intros c [Hc|Hc]; unfold okent; rewrite Em; [apply Rent; by left|]. apply Hq' in Hc as [Hc|[Hc|[Hc|Hc]]]; [apply Rent; by right|done..].
  - intros Hn Hh. destruct (Rself Hn Hh) as (a & b & Hab & Ha). rewrite Eq in Hab.
    apply app_eq_inv in Hab as [(k & H1 & H2)|(k & H1 & H2)].
    + destruct k as [|m k].
      * exists [], (b ++ l). cbn in H2. rewrite Eq', <-H2. split; [done|]. apply not_elem_of_nil.
      * cbn in H2. inversion H2; subst m b. assert (Hx : MBye 0 ∈ p) by (rewrite H1; apply elem_of_app; right; left).
        apply Hp' in Hx as [Hx|[Hx|Hx]]; [done..|congruence].
    + exists k, (b ++ l). rewrite Eq', H2, <-(assoc_L (++)). split; [done|]. intros Hx. apply Ha. rewrite H1. apply elem_of_app. by right.
  - rewrite <-Rcq, Eq, Eq', !creates_app, (creates_none l), (creates_none p), app_nil_r; [done|..]; intros c Hc.
    + by apply Hp' in Hc as [?|[?|?]].
    + by apply Hlo in Hc.
  - rewrite <-Rsq, Eq, Eq', !spawns_app, (spawns_none l), (spawns_none p), app_nil_r; [done|..]; intros c Hc.
    + by apply Hp' in Hc as [?|[?|?]].
    + by apply Hlo in Hc.
  - intros c. rewrite Hkn. apply Run.
  - intros c. rewrite Hkn. apply Rrq.
  - intros Hx. apply Rb0. destruct (Hq' _ Hx) as [?|[?|[?|Hy]]]; [done..|]. by inversion Hy.
  - destruct Rz as (Z1 & Z2 & Z3). split_and!; intros Hx; rewrite Eq' in Hx; apply elem_of_app in Hx as [Hx|Hx]; try done; try (by apply Hlo in Hx);
      [apply Z1|apply Z2|apply Z3]; rewrite Eq; apply elem_of_app; by right.
Qed.

(** ** Messages of a child *)
Lemma evolve_same s c ch : cm_children (f_cm s) !! c = Some ch -> evolve s c ch = s.
Proof. intros H. unfold evolve. rewrite insert_id by done. destruct s as [[]]. done. Qed.
Lemma from_UP s c l : (c ∉ f_foreign s -> upl s c = [] /\ downl s c = []) -> UP (from s c l) c = UP s c ++ List.filter (upm c) l.
Proof.
  intros Hl. unfold from, UP. destruct (decide (c ∈ f_foreign s)) as [Hf|Hf].
  - change (f_q (set_up _ _)) with (f_q s). unfold upl at 1. cbn [f_up set_up]. rewrite lookup_insert. cbn. by rewrite (assoc_L (++)), List.filter_app.
  - change (upl (push s l) c) with (upl s c). destruct (Hl Hf) as [-> _]. cbn. by rewrite !app_nil_r, List.filter_app.
Qed.
Lemma from_DN s c l : (forall m, m ∈ l -> dnm c m = false) -> DN (from s c l) c = DN s c.
Proof.
  intros Hl. unfold from. destruct (decide (c ∈ f_foreign s)) as [Hf|Hf]; [done|]. by apply DN_push.
Qed.
Lemma from_moved s ev c ch ch' l : rinv HNone s ev -> cm_children (f_cm s) !! c = Some ch -> (forall m, m ∈ l -> upm c m = true \/ m = MTrigger 0) ->
  moved c ch' s (from (evolve s c ch') c l).
Proof.
  intros R Hch Hl. unfold from. change (f_foreign (evolve s c ch')) with (f_foreign s).
  assert (Hcm : exists M, f_cm (evolve s c ch') = set_children (f_cm s) M /\ M !! c = Some ch' /\ forall d, d <> c -> M !! d = cm_children (f_cm s) !! d).
  { eexists. split; [done|]. split; [by rewrite lookup_insert|]. intros d Hd. by rewrite lookup_insert_ne. }
  destruct (decide (c ∈ f_foreign s)) as [Hf|Hf]; split; try done.
  - exists [], (f_q s), []. cbn. rewrite app_nil_r. split_and!; [done|done|by left|]. intros m Hm. by apply elem_of_nil in Hm.
  - intros d Hd. split; [|done]. unfold upl. cbn. by rewrite lookup_insert_ne.
  - intros m. unfold upl at 1. cbn. rewrite lookup_insert. cbn. intros Hm. apply elem_of_app in Hm as [Hm|Hm]; [by apply (r_upl _ _ _ R)|auto].
  - intros m Hm. by apply (r_downl _ _ _ R).
  - exists [], (f_q s), l. split_and!; [done|done|by left|]. intros m Hm. destruct (Hl m Hm); auto.
  - intros m Hm. by apply (r_upl _ _ _ R).
  - intros m Hm. by apply (r_downl _ _ _ R).
  - intros _. by apply (r_local _ _ _ R).
Qed.

(** What a child needs from the rest of the family. *)
Record frame (c : N) (s s' : fstate) : Prop := {
  fr_un : cm_unsub (f_cm s') = cm_unsub (f_cm s);
  fr_so : cm_shutout (f_cm s') = cm_shutout (f_cm s);
  fr_st : cm_state (f_cm s') = cm_state (f_cm s);
  fr_f : f_foreign s' = f_foreign s;
  fr_i : f_init s' = f_init s;
  fr_b : c ∈ f_bye s' <-> c ∈ f_bye s;
  fr_q : MUnsub c ∈ f_q s -> MUnsub c ∈ f_q s'
}.
Lemma from_frame s c d ch' l : frame d s (from (evolve s c ch') c l).
Proof.
  unfold from. change (f_foreign (evolve s c ch')) with (f_foreign s). destruct (decide _); split; cbn; try done. intros ?. apply elem_of_app. by left.
Qed.

Lemma trigger_inv s ev c ch : rinv HNone s ev -> c <> 0 -> cm_children (f_cm s) !! c = Some ch -> rank (ch_state ch) < 5 -> rinv HNone (from s c [MTrigger c]) ev.
Proof.
  intros R Hc0 Hch Hr. rewrite <-(evolve_same s c ch) at 1 by done.
  assert (Hl : forall m, m ∈ [MTrigger c] -> upm c m = true \/ m = MTrigger 0) by (intros m Hm; apply elem_of_list_singleton in Hm as ->; left; apply N.eqb_refl).
  eapply child_inv; [done..|by eexists|by eapply from_moved|].
  destruct (from_frame s c c ch [MTrigger c]) as [F1 F2 F3 F4 F5 F6 F7]. set (s' := from _ _ _) in *.
  assert (HU : UP s' c = UP s c ++ [MTrigger c]). { unfold s'. rewrite from_UP by exact (r_local _ _ _ R c). cbn. by rewrite N.eqb_refl. }
  assert (HD : DN s' c = DN s c). { unfold s'. rewrite from_DN; [done|]. intros m Hm. by apply elem_of_list_singleton in Hm as ->. }
  assert (Hns : ch_state ch <> AShutDown) by (intros Hx; rewrite Hx in Hr; cbn in Hr; lia). clearbody s'.
  destruct (r_child _ _ _ R c ch Hc0 Hch) as [P1 P2 P3 P4 P5 P6 P7 P8].
  split; rewrite ?F1, ?F2, ?F3, ?F4, ?F5, ?HU, ?HD; try done.
  - by eapply dnok_mono; [..|exact P1].
  - intros Hs. rewrite elem_of_app, elem_of_list_singleton. intros [?|?]; [by apply P2|done].
  - intros Hx. by destruct (P4 Hx).
  - intros Hx. by destruct (P5 Hx).
  - intros Hx. destruct (P6 Hx) as [?|[? _]]; [by left|done].
  - intros Hx. destruct (P8 Hx) as [?|[?|[[f ?]|?]]]; auto. right. right. left. exists f. apply elem_of_app. by left.
Qed.

Lemma dnok_r c (f s5 r r' b b' a : Prop) l : (r' <-> r) -> (b' <-> b) -> dnok c f s5 r b a l -> dnok c f s5 r' b' a l.
Proof. intros Hr Hb H. unfold dnok. by rewrite Hr, Hb. Qed.

Lemma answer_inv s ev c ch (failed : bool) : rinv HNone s ev -> c <> 0 -> cm_children (f_cm s) !! c = Some ch -> ch_state ch = AInitializing ->
  rinv HNone (from (evolve s c (Child (if failed then AInitializing else AInitialized) (ch_abn ch) false)) c [MInitResp c failed]) ev.
Proof.
  intros R Hc0 Hch Hr. set (ch' := Child _ _ _).
  assert (Hl : forall m, m ∈ [MInitResp c failed] -> upm c m = true \/ m = MTrigger 0) by (intros m Hm; apply elem_of_list_singleton in Hm as ->; left; apply N.eqb_refl).
  eapply child_inv; [done..|by eexists|by eapply from_moved|].
  destruct (from_frame s c c ch' [MInitResp c failed]) as [F1 F2 F3 F4 F5 F6 F7].
  assert (Hst : ch_state ch' = AInitializing \/ ch_state ch' = AInitialized) by (destruct failed; cbn; auto).
  clearbody ch'. set (s' := from _ _ _) in *.
  assert (HU : UP s' c = UP s c ++ [MInitResp c failed]). { unfold s'. rewrite from_UP by exact (r_local _ _ _ R c). cbn. by rewrite N.eqb_refl. }
  assert (HD : DN s' c = DN s c). { unfold s'. rewrite from_DN; [done|]. intros m Hm. by apply elem_of_list_singleton in Hm as ->. }
  assert (Hns : ch_state ch' <> AShutDown) by (destruct Hst; congruence). assert (Hns2 : ch_state ch <> AShutDown) by congruence. clearbody s'.
  destruct (r_child _ _ _ R c ch Hc0 Hch) as [P1 P2 P3 P4 P5 P6 P7 P8].
  split; rewrite ?F1, ?F2, ?F3, ?F4, ?F5, ?HU, ?HD; try done.
  - eapply dnok_r; [..|exact P1]; [|done]. rewrite Hr. destruct Hst as [-> | ->]; cbn; lia.
  - intros _. rewrite elem_of_app, elem_of_list_singleton. intros [?|?]; [by apply P2|done].
  - intros Hx. by destruct (P4 Hx).
  - intros Hx. by destruct (P5 Hx).
  - intros Hx. destruct (P6 Hx) as [?|[? _]]; [by left|done].
  - intros Hx. right. right. left. exists failed. apply elem_of_app. right. left.
Qed.

Lemma start_inv s ev c ch : rinv HNone s ev -> c <> 0 -> cm_children (f_cm s) !! c = Some ch -> ch_state ch = AInitialized ->
  rinv HNone (evolve s c (Child AOperational (ch_abn ch) (ch_initreq ch))) ev.
Proof.
  intros R Hc0 Hch Hr. set (ch' := Child _ _ _).
  assert (Hm : moved c ch' s (evolve s c ch')).
  { split; try done.
    - eexists. split; [done|]. split; [by rewrite lookup_insert|]. intros d Hd. by rewrite lookup_insert_ne.
    - exists [], (f_q s), []. cbn. rewrite app_nil_r. split_and!; [done|done|by left|]. intros m Hm. by apply elem_of_nil in Hm.
    - intros m Hm. by apply (r_upl _ _ _ R).
    - intros m Hm. by apply (r_downl _ _ _ R).
    - intros Hf. by apply (r_local _ _ _ R). }
  eapply child_inv; [done..|by eexists|done|].
  destruct (r_child _ _ _ R c ch Hc0 Hch) as [P1 P2 P3 P4 P5 P6 P7 P8].
  assert (Hns : ch_state ch <> AShutDown) by congruence.
  split; try done.
  - eapply dnok_r; [..|exact P1]; [|done]. rewrite Hr. cbn. lia.
  - intros _. by apply P2.
  - intros Hx. by destruct (P4 Hx).
  - intros Hx. by destruct (P5 Hx).
  - intros Hx. destruct (P6 Hx) as [?|[? _]]; [by left|done].
Qed.

Lemma done_inv s ev c ch : rinv HNone s ev -> c <> 0 -> cm_children (f_cm s) !! c = Some ch -> ch_state ch = AShuttingDown -> c ∈ f_bye s ->
  rinv HNone (from (evolve s c (Child AShutDown (ch_abn ch) (ch_initreq ch))) c [MShutResp c]) ev.
Proof.
  intros R Hc0 Hch Hr Hby. set (ch' := Child _ _ _).
  assert (Hl : forall m, m ∈ [MShutResp c] -> upm c m = true \/ m = MTrigger 0) by (intros m Hm; apply elem_of_list_singleton in Hm as ->; left; apply N.eqb_refl).
  eapply child_inv; [done..|by eexists|by eapply from_moved|].
  destruct (from_frame s c c ch' [MShutResp c]) as [F1 F2 F3 F4 F5 F6 F7].
  assert (Hst : ch_state ch' = AShutDown) by done. assert (Hiq : ch_initreq ch' = ch_initreq ch) by done.
  clearbody ch'. set (s' := from _ _ _) in *.
  assert (HU : UP s' c = UP s c ++ [MShutResp c]). { unfold s'. rewrite from_UP by exact (r_local _ _ _ R c). cbn. by rewrite N.eqb_refl. }
  assert (HD : DN s' c = DN s c). { unfold s'. rewrite from_DN; [done|]. intros m Hm. by apply elem_of_list_singleton in Hm as ->. }
  assert (Hns2 : ch_state ch <> AShutDown) by congruence. clearbody s'.
  destruct (r_child _ _ _ R c ch Hc0 Hch) as [P1 P2 P3 P4 P5 P6 P7 P8].
  assert (Hne : UP s c ++ [MShutResp c] <> []) by (intros Hx; apply app_eq_nil in Hx as [_ ?]; done).
  split; rewrite ?F1, ?F2, ?F3, ?F4, ?F5, ?HU, ?HD, ?Hiq; try done.
  - eapply dnok_r; [..|exact P1]; [|done]. rewrite Hst, Hr. cbn. lia.
  - intros _. split; [by apply F6|]. right. exists (UP s c). split; [done|]. by apply P2.
  - intros Hx. by destruct (P4 Hx).
  - intros Hx. by destruct (P5 Hx).
  - intros Hx. destruct (P6 Hx) as [?|[? _]]; [by left|done].
  - intros Hx. destruct (P8 Hx) as [?|[?|[[f ?]|?]]]; auto. right. right. left. exists f. apply elem_of_app. by left.
Qed.

(** ** Messages to a child *)
Section handles.
Context (s s' : fstate) (ev : list cevent) (c : N) (ch ch' : child) (m : fmsg) (L : list fmsg).
Hypothesis HP : pc HNone s ev c ch.
Hypothesis HF1 : cm_unsub (f_cm s') = cm_unsub (f_cm s).
Hypothesis HF2 : cm_shutout (f_cm s') = cm_shutout (f_cm s).
Hypothesis HF3 : cm_state (f_cm s') = cm_state (f_cm s).
Hypothesis HF4 : f_foreign s' = f_foreign s.
Hypothesis HF5 : f_init s' = f_init s.
Hypothesis HF7 : MUnsub c ∈ f_q s -> MUnsub c ∈ f_q s'.
Hypothesis HU : UP s' c = UP s c.
Hypothesis HD : DN s c = m :: L.

Lemma dn_head : dnok c (c ∈ f_foreign s) (sup5 s) (5 <= rank (ch_state ch)) (c ∈ f_bye s) (EShutReq c ∈ ev) (m :: L).
Proof. pose proof (p_dn _ _ _ _ _ HP) as H. rewrite decide_False, HD in H by done. done. Qed.

(** The handlers of the child are gone. *)
Lemma pc_bye : c ∈ f_bye s -> c ∈ f_bye s' -> DN s' c = L -> pc HNone s' ev c ch.
Proof.
  intros Hb Hb' HD'. pose proof dn_head as Hd. destruct HP as [_ P2 P3 P4 P5 P6 P7 P8].
  assert (Hx : 5 <= rank (ch_state ch) /\ EShutReq c ∈ ev /\ L = [] /\ c ∈ f_foreign s /\ sup5 s).
  { destruct Hd as [(_ & _ & ? & _)|[(_ & _ & ? & _)|[(_ & _ & ? & _)|(H1 & H2 & _ & [?|(H3 & H4 & H5)])]]]; try done. inversion H5; subst. done. }
  destruct Hx as (H1 & H2 & H3 & H4 & H5).
  split; rewrite ?HF1, ?HF2, ?HF3, ?HF4, ?HF5, ?HU, ?HD'; try done.
  - rewrite decide_False, app_nil_l by done. right. right. right. split_and!; try done. by left.
  - intros Hs. destruct (P3 Hs). auto.
  - intros Hx. destruct (P5 Hx) as (? & ? & ?). auto.
  - intros Hx. auto 10.
Qed.

Lemma pc_initreq : m = MInitReq c -> c ∉ f_bye s -> (c ∈ f_bye s' <-> c ∈ f_bye s) -> DN s' c = L -> ch_state ch' = ch_state ch -> ch_initreq ch' = true -> pc HNone s' ev c ch'.
Proof.
  pose proof dn_head as Hd. intros -> Hb Hb' HD' Hst Hi. destruct HP as [_ P2 P3 P4 P5 P6 P7 P8].
  split; rewrite ?HF1, ?HF2, ?HF3, ?HF4, ?HF5, ?HU, ?HD', ?Hst; try done.
  - rewrite decide_False, app_nil_l by done. eapply dnok_r; [reflexivity|exact Hb'|].
    destruct Hd as [(H1 & H2 & H3 & H4)|[(H1 & H2 & H3 & H4)|[(H1 & H2 & H3 & H4)|(H1 & H2 & H3 & _)]]]; [..|done].
    + left. split_and!; try done. destruct H4 as [H4|[H4|H4]]; inversion H4; subst. auto.
    + right. left. split_and!; try done. destruct H4 as [H4|[H4|[_ [H4|H4]]]]; inversion H4; subst. auto.
    + right. right. left. split_and!; try done. destruct H4 as [H4|[[_ H4]|(_ & _ & H4)]]; inversion H4; subst. auto.
  - intros Hs. destruct (P3 Hs). by rewrite Hb'.
  - intros Hx. destruct (P5 Hx) as (? & ? & ?). auto.
  - intros Hx. auto.
Qed.

Lemma pc_shutreq : m = MShutReq c -> c ∉ f_bye s -> (c ∈ f_bye s' <-> c ∈ f_bye s) ->
  DN s' c = L ++ [MBye c] \/ (c ∈ f_foreign s /\ DN s' c = MBye c :: L) -> ch_state ch' = AShuttingDown -> ch_initreq ch' = ch_initreq ch -> pc HNone s' ev c ch'.
Proof.
  pose proof dn_head as Hd. intros -> Hb Hb' HD' Hst Hi. destruct HP as [_ P2 P3 P4 P5 P6 P7 P8].
  assert (Hx : ~ 5 <= rank (ch_state ch) /\ EShutReq c ∈ ev /\ (L = [] \/ ((c ∈ f_foreign s -> sup5 s) /\ L = [MInitReq c]))).
  { destruct Hd as [(H1 & H2 & H3 & H4)|[(H1 & H2 & H3 & H4)|[(H1 & H2 & H3 & H4)|(H1 & H2 & H3 & _)]]]; [..|done].
    - destruct H4 as [H4|[H4|H4]]; inversion H4.
    - split_and!; try done. destruct H4 as [H4|[H4|[H5 [H4|H4]]]]; inversion H4; subst; auto.
    - destruct H4 as [H4|[[_ H4]|(_ & _ & H4)]]; inversion H4. }
  destruct Hx as (H1 & H2 & H3). assert (Hns : ch_state ch <> AShutDown) by (intros Hx; apply H1; rewrite Hx; cbn; lia).
  split; rewrite ?HF1, ?HF2, ?HF3, ?HF4, ?HF5, ?HU, ?Hst, ?Hi; try done.
  - rewrite decide_False, app_nil_l by done. eapply dnok_r; [reflexivity|exact Hb'|]. right. right. left. split; [cbn; lia|]. split; [done|]. split; [done|].
    destruct H3 as [->|[H3 ->]]; destruct HD' as [->|[Hf ->]]; cbn [app]; auto 10.
  - intros _. by apply P2.
  - intros Hx. by destruct (P4 Hx).
  - intros Hx. by destruct (P5 Hx).
  - intros Hx. destruct (P6 Hx) as [?|[? _]]; [by left|done].
  - intros Hx. destruct (P8 Hx) as [T|[?|[?|?]]]; auto. left. rewrite HD in T. apply elem_of_cons in T as [T|T]; [done|].
    destruct HD' as [->|[_ ->]]; [apply elem_of_app; by left|by right].
Qed.

Lemma pc_byemsg : m = MBye c -> c ∉ f_bye s -> c ∈ f_bye s' -> DN s' c = L -> pc HNone s' ev c ch.
Proof.
  pose proof dn_head as Hd. intros -> Hb Hb' HD'. destruct HP as [_ P2 P3 P4 P5 P6 P7 P8].
  assert (Hx : 5 <= rank (ch_state ch) /\ EShutReq c ∈ ev /\ (L = [] \/ (c ∈ f_foreign s /\ sup5 s /\ L = [MInitReq c]))).
  { destruct Hd as [(H1 & H2 & H3 & H4)|[(H1 & H2 & H3 & H4)|[(H1 & H2 & H3 & H4)|(H1 & H2 & H3 & _)]]]; [..|done].
    - destruct H4 as [H4|[H4|H4]]; inversion H4.
    - destruct H4 as [H4|[H4|[H5 [H4|H4]]]]; inversion H4.
    - split_and!; try done. destruct H4 as [H4|[[_ H4]|(? & ? & H4)]]; inversion H4; subst; auto. }
  destruct Hx as (H1 & H2 & H3).
  split; rewrite ?HF1, ?HF2, ?HF3, ?HF4, ?HF5, ?HU, ?HD'; try done.
  - rewrite decide_False, app_nil_l by done. right. right. right. split_and!; try done.
  - intros Hs. destruct (P3 Hs). auto.
  - intros Hx. destruct (P5 Hx) as (? & ? & ?). auto.
  - intros Hx. destruct (P8 Hx) as [T|[?|[?|?]]]; auto. left. rewrite HD in T. by apply elem_of_cons in T as [T|T].
Qed.
End handles.

Definition okmsgs (c : N) (s : fstate) : Prop :=
  (forall m, m ∈ upl s c -> upm c m = true \/ m = MTrigger 0) /\ (forall m, m ∈ downl s c -> m = MInitReq c \/ m = MShutReq c \/ m = MBye c) /\
  (c ∉ f_foreign s -> upl s c = [] /\ downl s c = []).
(** A step which only adds to the queue. *)
Definition adds (c : N) (s s' : fstate) : Prop := exists l, f_q s' = f_q s ++ l /\ forall m, m ∈ l -> upm c m = true \/ m = MTrigger 0 \/ m = MBye c.
Lemma moved_trans c ch1 ch2 s s1 s2 : moved c ch1 s s1 -> moved c ch2 s1 s2 -> adds c s1 s2 -> moved c ch2 s s2.
Proof.
  intros [(M1 & A1 & A1' & A1'') (p & q & l & A2 & A3 & A4 & A5) A6 A7 A8 A9 A10 A11 A12 A13 A14]
    [(M2 & B1 & B1' & B1'') _ B6 B7 B8 B9 B10 B11 B12 B13 B14] (l2 & C1 & C2). split; try congruence.
  - exists M2. split; [by rewrite B1, A1|]. split; [done|]. intros d Hd. rewrite B1'' by done. rewrite A1. cbn. auto.
  - exists p, q, (l ++ l2). split; [done|]. rewrite C1, A3, (assoc_L (++)). split_and!; try done. intros m Hm. apply elem_of_app in Hm as [?|?]; auto.
  - intros d Hd. destruct (A6 d Hd) as [E1 E2], (B6 d Hd) as [E3 E4]. split; congruence.
  - done.
  - done.
  - by rewrite <-A10.
  - intros d Hd. by rewrite B14, A14.
Qed.
Lemma moved_ok c ch s s' : moved c ch s s' -> okmsgs c s'.
Proof. intros [_ _ _ B7 B8 B9 B10 _ _ _ _]. split_and!; try done. by rewrite B10. Qed.

Lemma from_moved' s c ch' l : okmsgs c s -> (forall m, m ∈ l -> upm c m = true \/ m = MTrigger 0) ->
  moved c ch' s (from (evolve s c ch') c l) /\ adds c s (from (evolve s c ch') c l).
Proof.
  intros (O1 & O2 & O3) Hl. unfold from. change (f_foreign (evolve s c ch')) with (f_foreign s).
  assert (Hcm : exists M, f_cm (evolve s c ch') = set_children (f_cm s) M /\ M !! c = Some ch' /\ forall d, d <> c -> M !! d = cm_children (f_cm s) !! d).
  { eexists. split; [done|]. split; [by rewrite lookup_insert|]. intros d Hd. by rewrite lookup_insert_ne. }
  destruct (decide (c ∈ f_foreign s)) as [Hf|Hf]; (split; [split; try done|]).
  - exists [], (f_q s), []. cbn. rewrite app_nil_r. split_and!; [done|done|by left|]. intros m Hm. by apply elem_of_nil in Hm.
  - intros d Hd. split; [|done]. unfold upl. cbn. by rewrite lookup_insert_ne.
  - intros m. unfold upl at 1. cbn. rewrite lookup_insert. cbn. intros Hm. apply elem_of_app in Hm as [Hm|Hm]; auto.
  - exists []. cbn. rewrite app_nil_r. split; [done|]. intros m Hm. by apply elem_of_nil in Hm.
  - exists [], (f_q s), l. split_and!; [done|done|by left|]. intros m Hm. destruct (Hl m Hm); auto.
  - exists l. split; [done|]. intros m Hm. destruct (Hl m Hm); auto.
Qed.
Lemma own_moved s c ch : cm_children (f_cm s) !! c = Some ch -> okmsgs c s -> moved c ch s (own s c [MBye c]) /\ adds c s (own s c [MBye c]).
Proof.
  intros Hch (O1 & O2 & O3). unfold own.
  assert (Hcm : exists M, f_cm s = set_children (f_cm s) M /\ M !! c = Some ch /\ forall d, d <> c -> M !! d = cm_children (f_cm s) !! d).
  { exists (cm_children (f_cm s)). by destruct (f_cm s). }
  destruct (decide (c ∈ f_foreign s)) as [Hf|Hf]; (split; [split; try done|]).
  - exists [], (f_q s), []. cbn. rewrite app_nil_r. split_and!; [done|done|by left|]. intros m Hm. by apply elem_of_nil in Hm.
  - intros d Hd. split; [done|]. unfold downl. cbn. by rewrite lookup_insert_ne.
  - intros m. unfold downl at 1. cbn. rewrite lookup_insert. cbn. intros Hm. apply elem_of_app in Hm as [Hm|Hm]; [auto|]. apply elem_of_list_singleton in Hm. auto.
  - exists []. cbn. rewrite app_nil_r. split; [done|]. intros m Hm. by apply elem_of_nil in Hm.
  - exists [], (f_q s), [MBye c]. split_and!; [done|done|by left|]. intros m Hm. apply elem_of_list_singleton in Hm. auto.
  - exists [MBye c]. split; [done|]. intros m Hm. apply elem_of_list_singleton in Hm. auto.
Qed.

Lemma own_DN s c : (c ∉ f_foreign s -> upl s c = [] /\ downl s c = []) ->
  DN (own s c [MBye c]) c = (if decide (c ∈ f_foreign s) then List.filter (dnm c) (downl s c) ++ MBye c :: List.filter (dnm c) (f_q s) else DN s c ++ [MBye c]).
Proof.
  intros Hl. unfold own, DN. destruct (decide (c ∈ f_foreign s)) as [Hf|Hf].
  - change (f_q (set_down _ _)) with (f_q s). unfold downl at 1. cbn [f_down set_down]. rewrite lookup_insert. cbn. rewrite !List.filter_app. cbn. rewrite N.eqb_refl.
    by rewrite <-(assoc_L (++)).
  - change (downl (push s _) c) with (downl s c). destruct (Hl Hf) as [_ ->]. cbn. rewrite List.filter_app. cbn. by rewrite N.eqb_refl.
Qed.
Lemma evolve_moved s c ch' : okmsgs c s -> moved c ch' s (evolve s c ch') /\ adds c s (evolve s c ch').
Proof.
  intros (O1 & O2 & O3). split; [split; try done|].
  - eexists. split; [done|]. split; [by rewrite lookup_insert|]. intros d Hd. by rewrite lookup_insert_ne.
  - exists [], (f_q s), []. cbn. rewrite app_nil_r. split_and!; [done|done|by left|]. intros m Hm. by apply elem_of_nil in Hm.
  - exists []. cbn. rewrite app_nil_r. split; [done|]. intros m Hm. by apply elem_of_nil in Hm.
Qed.

(** ** A child handles a message *)
Lemma handles_inv s ev c ch m s1 abn esc : rinv HNone s ev -> c <> 0 -> cm_children (f_cm s) !! c = Some ch ->
  (m = MInitReq c \/ m = MShutReq c \/ m = MBye c) -> moved c ch s s1 -> UP s1 c = UP s c -> DN s c = m :: DN s1 c -> f_bye s1 = f_bye s ->
  rinv HNone (child_handles s1 c m abn esc) ev.
Proof.
  intros R Hc0 Hch Hm Hmv HU HD Hby. pose proof (r_child _ _ _ R c ch Hc0 Hch) as HP.
  assert (HF : forall s' ch', moved c ch' s s' -> cm_unsub (f_cm s') = cm_unsub (f_cm s) /\ cm_shutout (f_cm s') = cm_shutout (f_cm s) /\ cm_state (f_cm s') = cm_state (f_cm s) /\
      f_foreign s' = f_foreign s /\ f_init s' = f_init s /\ (MUnsub c ∈ f_q s -> MUnsub c ∈ f_q s')).
  { intros s' ch' [(M1 & A1 & _ & _) (p & q & l & A2 & A3 & A4 & _) _ _ _ _ A10 A11 _ _ _]. rewrite A1. cbn. split_and!; try done.
    intros Hx. rewrite A3. rewrite A2 in Hx. apply elem_of_app. left. apply elem_of_app in Hx as [Hx|Hx]; [|done].
    destruct A4 as [->|[->|[->| ->]]]; [by apply elem_of_nil in Hx|by apply elem_of_list_singleton in Hx..]. }
  assert (Hch1 : cm_children (f_cm s1) !! c = Some ch). { destruct (mv_cm _ _ _ _ Hmv) as (M & HM & HM2 & _). by rewrite HM. }
  pose proof (moved_ok _ _ _ _ Hmv) as Ho1.
  unfold child_handles. destruct (decide (c ∈ f_bye s1)) as [Hb|Hb].
  - eapply child_inv; [done..|by eexists|done|]. destruct (HF _ _ Hmv) as (F1 & F2 & F3 & F4 & F5 & F7).
    eapply (pc_bye s); try done. by rewrite <-Hby.
  - rewrite Hch1. destruct Hm as [->|[->| ->]].
    + destruct (evolve_moved s1 c (Child (ch_state ch) (ch_abn ch) true) Ho1) as [Hm1 Ha1].
      pose proof (moved_trans _ _ _ _ _ _ Hmv Hm1 Ha1) as Hmv2.
      eapply child_inv; [done..|by eexists|done|]. destruct (HF _ _ Hmv2) as (F1 & F2 & F3 & F4 & F5 & F7).
      eapply (pc_initreq s); try done; [by rewrite <-Hby|]. cbn. by rewrite Hby.
    + set (ch' := Child AShuttingDown _ _). set (s2 := if esc then _ else _).
      assert (H2 : moved c ch' s1 s2 /\ adds c s1 s2 /\ UP s2 c = UP s1 c /\ downl s2 c = downl s1 c /\ List.filter (dnm c) (f_q s2) = List.filter (dnm c) (f_q s1) /\
         f_bye s2 = f_bye s1 /\ cm_children (f_cm s2) !! c = Some ch').
      { unfold s2. destruct esc.
        - destruct (from_moved' s1 c ch' [MTrigger 0] Ho1) as [Hm1 Ha1]; [intros m Hm; apply elem_of_list_singleton in Hm; auto|].
          split_and!; try done.
          + rewrite from_UP by apply Ho1. change (UP (evolve s1 c ch') c) with (UP s1 c). cbn [List.filter upm].
            rewrite (proj2 (N.eqb_neq 0 c)) by congruence. by rewrite app_nil_r.
          + unfold from. by destruct (decide _).
          + unfold from. destruct (decide _); [done|]. cbn. rewrite List.filter_app. cbn. by rewrite app_nil_r.
          + unfold from. by destruct (decide _).
          + destruct (mv_cm _ _ _ _ Hm1) as (M & HM & HM2 & _). by rewrite HM.
        - destruct (evolve_moved s1 c ch' Ho1) as [Hm1 Ha1]. split_and!; try done. cbn. by rewrite lookup_insert. }
      assert (Hst : ch_state ch' = AShuttingDown) by done. assert (Hiq : ch_initreq ch' = ch_initreq ch) by done. clearbody ch' s2.
      destruct H2 as (Hm2 & Ha2 & HU2 & Hd2 & Hq2 & Hb2 & Hch2). pose proof (moved_ok _ _ _ _ Hm2) as Ho2.
      destruct (own_moved s2 c ch' Hch2 Ho2) as [Hm3 Ha3].
      assert (Hmv3 : moved c ch' s (own s2 c [MBye c])) by (eapply moved_trans; [eapply moved_trans; [exact Hmv|done|done]|done|done]).
      eapply child_inv; [done..|by eexists|done|]. destruct (HF _ _ Hmv3) as (F1 & F2 & F3 & F4 & F5 & F7).
      eapply (pc_shutreq s _ _ _ ch); try done.
      * rewrite <-HU, <-HU2. unfold own. destruct (decide _); [done|]. apply UP_push. intros m Hm. by apply elem_of_list_singleton in Hm as ->.
      * by rewrite <-Hby.
      * unfold own. destruct (decide _); cbn; by rewrite Hb2, Hby.
      * rewrite own_DN by apply Ho2. rewrite (mv_foreign _ _ _ _ Hm2), (mv_foreign _ _ _ _ Hmv).
        assert (HDs : DN s2 c = DN s1 c) by (unfold DN; by rewrite !List.filter_app, Hd2, Hq2).
        destruct (decide (c ∈ f_foreign s)) as [Hf|Hf]; [|left; by rewrite HDs].
        rewrite Hd2, Hq2.
        assert (HDs1 : DN s1 c = List.filter (dnm c) (downl s1 c) ++ List.filter (dnm c) (f_q s1)) by apply List.filter_app.
        assert (Hsh : DN s1 c = [] \/ DN s1 c = [MInitReq c]).
        { pose proof (dn_head s ev c ch _ _ HP HD) as [(H1 & H2 & H3 & H4)|[(H1 & H2 & H3 & H4)|[(H1 & H2 & H3 & H4)|(H1 & H2 & H3 & H4)]]];
          repeat match goal with H : _ \/ _ |- _ => destruct H as [H|H] | H : _ /\ _ |- _ => destruct H end; try congruence; inversion H4 || inversion H0; auto. }
        destruct (List.filter (dnm c) (downl s1 c)) as [|x l1], (List.filter (dnm c) (f_q s1)) as [|y l2]; cbn [app] in HDs1 |- *; rewrite HDs1 in *.
        -- by left.
        -- right. done.
        -- left. by rewrite app_nil_r.
        -- exfalso. destruct Hsh as [Hsh|Hsh]; [done|]. destruct l1; cbn in Hsh; by inversion Hsh.
    + assert (Hm1 : moved c ch s (set_bye s1 (f_bye s1 ∪ {[c]}))).
      { destruct Hmv as [A1 A2 A6 A7 A8 A9 A10 A11 A12 A13 A14]. split; try done. intros d Hd. cbn. rewrite elem_of_union, elem_of_singleton, A14 by done. tauto. }
      eapply child_inv; [done..|by eexists|done|]. destruct (HF _ _ Hm1) as (F1 & F2 & F3 & F4 & F5 & F7).
      eapply (pc_byemsg s); try done; [by rewrite <-Hby|]. cbn. set_solver.
Qed.
