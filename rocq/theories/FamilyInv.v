(** The invariant of an orderly family, and its preservation by the child manager. *)
From stdpp Require Import base list gmap.
From Verif Require Import Base ChildMgrModel ChildMgrSpec ChildMgrProofs ChildMgrTrace ChildMgrFacts FamilyModel FamilySpec FamilySteps FamilyFold.
Open Scope N_scope.

(** A part of the invariant which does not hold while the supervisor handles a
    message. *)
Inductive hole := HNone | HCreate (c : N) | HSpawn (a : N) | HConfirm (c : N) | HUnsub (c : N) | HLeave.
Global Instance hole_eq_dec : EqDecision hole.
Proof. solve_decision. Defined.

(** The messages under way to child [c]: [f] foreign, [s5] the supervisor shuts
    down, [r5] the child does, [by] its handlers are gone, [asked] it was asked to. *)
Definition dnok (c : N) (f s5 r5 by_ asked : Prop) (l : list fmsg) : Prop :=
  (~ r5 /\ ~ asked /\ ~ by_ /\ (l = [MCreate c] \/ l = [MInitReq c] \/ l = [])) \/
  (~ r5 /\ asked /\ ~ by_ /\ (l = [MInitReq c; MShutReq c] \/ l = [MShutReq c] \/
     ((f -> s5) /\ (l = [MCreate c; MShutReq c] \/ l = [MShutReq c; MInitReq c])))) \/
  (r5 /\ asked /\ ~ by_ /\ (l = [MBye c] \/ ((f -> s5) /\ l = [MInitReq c; MBye c]) \/ (f /\ s5 /\ l = [MBye c; MInitReq c]))) \/
  (r5 /\ asked /\ by_ /\ (l = [] \/ (f /\ s5 /\ l = [MInitReq c]))).

Lemma dnok_mono c (f f' s5 s5' r5 b b' a a' : Prop) l : (f' <-> f) -> (s5 -> s5') -> (b' <-> b) -> (a' <-> a) -> dnok c f s5 r5 b a l -> dnok c f' s5' r5 b' a' l.
Proof.
  intros Hf H5 Hb Ha [(Q1 & Q2 & Q3 & Q4)|[(Q1 & Q2 & Q3 & Q4)|[(Q1 & Q2 & Q3 & Q4)|(Q1 & Q2 & Q3 & Q4)]]]; unfold dnok; rewrite Hf, Hb, Ha.
  - left. done.
  - right. left. split_and!; try done. destruct Q4 as [?|[?|[? ?]]]; auto 10.
  - right. right. left. split_and!; try done. destruct Q4 as [?|[[? ?]|(? & ? & ?)]]; auto 10.
  - right. right. right. split_and!; try done. destruct Q4 as [?|(? & ? & ?)]; auto 10.
Qed.

Notation sup5 s := (5 <= rank (cm_state (f_cm s))).

Record pc (h : hole) (s : fstate) (ev : list cevent) (c : N) (ch : child) : Prop := {
  p_dn : dnok c (c ∈ f_foreign s) (sup5 s) (5 <= rank (ch_state ch)) (c ∈ f_bye s) (EShutReq c ∈ ev)
           ((if decide (h = HCreate c) then [MCreate c] else []) ++ DN s c);
  p_up1 : ch_state ch <> AShutDown -> MShutResp c ∉ UP s c;
  p_up2 : ch_state ch = AShutDown -> c ∈ f_bye s /\ (UP s c = [] \/ exists x, UP s c = x ++ [MShutResp c] /\ MShutResp c ∉ x);
  p_rem : removed c ev -> ch_state ch = AShutDown /\ UP s c = [] /\ c ∉ cm_unsub (f_cm s);
  p_un : c ∈ cm_unsub (f_cm s) -> ch_state ch = AShutDown /\ UP s c = [] /\ (h <> HUnsub c -> MUnsub c ∈ f_q s);
  p_ask : EShutReq c ∈ ev -> c ∈ cm_shutout (f_cm s) \/ (ch_state ch = AShutDown /\ UP s c = []);
  p_gone : ch_state ch = AShutDown -> UP s c = [] -> h <> HConfirm c -> removed c ev \/ c ∈ cm_unsub (f_cm s);
  p_init : c ∈ f_init s -> MInitReq c ∈ DN s c \/ ch_initreq ch = true \/ (exists f, MInitResp c f ∈ UP s c) \/ (c ∈ f_foreign s /\ sup5 s)
}.

Definition creates (q : list fmsg) : list N := omap (fun m => match m with MCreate c => Some c | _ => None end) q.
Definition spawns (q : list fmsg) : list N := omap (fun m => match m with MSpawn c => Some c | _ => None end) q.
Definition no_to (m : fmsg) : Prop := match m with MInitTimeout _ | MShutTimeout _ => False | _ => True end.

Record rinv (h : hole) (s : fstate) (ev : list cevent) : Prop := {
  r_clean : clean s;
  r_local : local_empty s;
  r_known : forall c, known s c -> c < cm_next (f_cm s) /\ (c <> 0 -> ECreated c ∈ ev);
  r_created : forall c, ECreated c ∈ ev -> known s c;
  r_child : forall c ch, c <> 0 -> cm_children (f_cm s) !! c = Some ch -> pc h s ev c ch;
  r_upl : forall c m, m ∈ upl s c -> upm c m = true \/ m = MTrigger 0;
  r_downl : forall c m, m ∈ downl s c -> m = MInitReq c \/ m = MShutReq c \/ m = MBye c;
  r_f0 : 0 ∉ f_foreign s;
  r_ct : forall c, c ∈ f_foreign s -> forall a b, f_q s = a ++ MTrigger c :: b -> MCreate c ∉ b;
  r_to : exists t r, f_q s = t ++ r /\ Forall is_timeout t /\ Forall no_to r;
  r_ent : forall c, c ∈ f_init s \/ MInitTimeout c ∈ f_q s -> c < cm_next (f_cm s) /\ okent (f_cm s) c;
  r_self : cm_map (f_cm s) !! 0 = None -> h <> HLeave -> exists a b, f_q s = a ++ MBye 0 :: b /\ MTrigger 0 ∉ a;
  r_shut : forall c, c ∈ cm_shutout (f_cm s) -> h <> HConfirm c -> c ∈ f_shut s;
  r_initout : forall c, c ∈ f_init s -> c ∈ cm_initout (f_cm s);
  r_createq : (match h with HCreate c => [c] | _ => [] end) ++ creates (f_q s) = cm_createq (f_cm s);
  r_spawnq : (match h with HSpawn a => [a] | _ => [] end) ++ spawns (f_q s) = cm_spawnq (f_cm s);
  r_unsub : forall c, c ∈ cm_unsub (f_cm s) -> known s c /\ c <> 0;
  r_req : forall c, EShutReq c ∈ ev -> known s c /\ c <> 0;
  r_bye0 : MBye 0 ∈ f_q s -> f_phase s = PLeft;
  r_zero : MShutResp 0 ∉ f_q s /\ MCreate 0 ∉ f_q s /\ MShutReq 0 ∉ f_q s;
  r_hole : match h with
           | HNone | HLeave | HSpawn _ => True
           | HCreate c => known s c /\ c <> 0
           | HConfirm c => known s c /\ c <> 0 /\ c ∈ cm_shutout (f_cm s) /\ c ∉ cm_unsub (f_cm s) /\ ~ removed c ev /\ UP s c = [] /\
               (forall d, MInitTimeout d ∉ f_q s) /\ (forall ch, cm_children (f_cm s) !! c = Some ch -> ch_state ch = AShutDown)
           | HUnsub c => forall d, MInitTimeout d ∉ f_q s
           end
}.

(** The operation which closes the hole, and what it opens. *)
Definition closes (h : hole) (o : cop) : Prop :=
  match o with
  | OOnCreate c => h = HCreate c
  | OOnSpawn a _ => h = HSpawn a
  | OConfirm c _ _ => h = HConfirm c
  | OUnsubLast c _ => h = HUnsub c
  | OChild _ _ => False
  | _ => h = HNone
  end.
Definition post (o : cop) : hole :=
  match o with OConfirm c true _ => HUnsub c | ODeactivate _ _ => HLeave | _ => HNone end.

Section inv.
Context (hp : bool) (policy : spolicy) (sync : bool).
Notation step := (cstep hp policy sync).
Notation manage := (manage hp policy sync).

Lemma removes_confirm s c ask s' e : cinv s -> step s (OConfirm c false ask) = Ok (s', e) -> c ∈ cm_shutout s -> removed c e.
Proof.
  intros Hv H Hc. cbn -[remove_child] in H. rewrite bool_decide_true in H by done. unfold on_shutdown_confirm in H.
  set (s1 := set_shutout s _) in H. change (cm_map s1) with (cm_map s) in H. destruct (cm_map s !! c) as [i|] eqn:Hm; [|done].
  destruct (ci_actor i) as [x|] eqn:Ha; [|done]. assert (x = c) as -> by (by eapply v_key).
  destruct (remove_child _ _ _ _) as [[s2 e2]| |] eqn:Er; cbn in H; [|done..]. inversion H; subst; clear H.
  apply remove_eff in Er as (i2 & c2 & k & abn & e1 & e3 & Hm2 & Ha2 & -> & _).
  cbn in Hm2. rewrite lookup_insert in Hm2. inversion Hm2; subst. cbn in Ha2. assert (c2 = c) as -> by congruence.
  exists k, abn, ask. apply elem_of_app. left. apply elem_of_app. right. left.
Qed.
Lemma removes_unsub s c ask s' e : cinv s -> step s (OUnsubLast c ask) = Ok (s', e) -> c ∈ cm_unsub s -> removed c e.
Proof.
  intros Hv H Hc. cbn -[remove_child] in H. rewrite bool_decide_true in H by done.
  apply remove_eff in H as (i2 & c2 & k & abn & e1 & e3 & Hm2 & Ha2 & -> & _).
  cbn in Hm2. assert (c2 = c) as -> by (by eapply v_key). exists k, abn, ask. apply elem_of_app. right. left.
Qed.
Lemma deactivate_state s m ask s' e c : step s (ODeactivate m ask) = Ok (s', e) -> removed c e -> cm_state s = AShuttingDown.
Proof.
  cbn -[deactivate]. case_bool_decide as Hb; [done|]. intros H (k & abn & a & Hx). inversion H; subst. by apply elem_of_nil in Hx.
Qed.

(** The child manager of a known family keeps the invariant. *)
Lemma allinv_step s o s' e ev : allinv False s ev -> step s o = Ok (s', e) -> allinv False s' (ev ++ e).
Proof. intros Ha H. eapply allinv_moves; [|done]. eapply step_moves; [by destruct Ha|done|done]. Qed.
Lemma allinv_weak s s' ev : cm_map s' = cm_map s -> same s s' -> allinv False s ev -> allinv False s' ev.
Proof.
  intros Hm Hs Ha. rewrite <-(app_nil_r ev). eapply allinv_moves; [|done]. apply moves_quiet; [|constructor]. by apply qrel_same.
Qed.

Lemma manage_inv h fo ea s ev o s' e : allinv False (f_cm s) ev -> rinv h s ev -> closes h o ->
  (forall c, o = OTrigger c -> c ∈ f_foreign s -> MCreate c ∉ f_q s) -> (o = OVoteShutdown -> f_phase s = PWorking) ->
  manage fo ea s o = Ok (s', e) -> rinv (post o) s' (ev ++ e).
Proof.
  intros Hall [Rcl Rloc Rkn Rcr Rch Rul Rdl Rf0 Rct Rto Rent Rself Rsh Rio Rcq Rsq Run Rrq Rb0 Rz Rh] Hclo Htr Hvo H.
  pose proof Hall as [Hv _ _ Hh].
  assert (Hno : match o with OChild _ _ => False | _ => True end) by (by destruct o).
  assert (Hst : exists cm, step (f_cm s) o = Ok (cm, e)).
  { unfold FamilyModel.manage in H. destruct (step (f_cm s) o) as [[cm e']| |]; cbn in H; [|done..]. inversion H; subst. by eexists. }
  destruct Hst as [cm Hst].
  pose proof (step_eff hp policy sync _ _ _ _ Hv Hno Hst) as He.
  assert (Hkind : forall x, x ∈ e -> kind (f_cm s) o cm x). { pose proof (ef_kind _ _ _ _ He) as Hk. by rewrite Forall_forall in Hk. }
  pose proof (step_moves hp policy sync False _ _ _ _ Hv ltac:(done) Hst) as Hmv.
  assert (Hcid : forall c, ECreated c ∈ e -> c = cm_next (f_cm s) /\ ~ known s c /\ c <> 0 /\ forall x, x ∈ e -> x = ECreated c \/ idle x = true).
  { intros c Hc. destruct (created_ops _ _ _ _ _ _ _ _ He Hst Hc) as (-> & e1 & e2 & -> & _ & _ & Hid & _).
    pose proof (v_next _ Hv). split_and!; [done| |lia|].
    - intros Hx. apply Rkn in Hx as [Hx _]. lia.
    - intros x Hx. rewrite Forall_forall in Hid. apply elem_of_app in Hx as [Hx|Hx]; [right; apply Hid, elem_of_app; by left|].
      apply elem_of_cons in Hx as [?|Hx]; [by left|]. right. apply Hid, elem_of_app. by right. }
  assert (Hreq : forall c, EShutReq c ∈ e \/ EInitReq c ∈ e -> known s c /\ c <> 0).
  { intros c [Hc|Hc].
    - destruct (req_created _ _ _ _ _ _ Hmv Hall Hc) as [Hc0 Hx]. split; [|done]. apply elem_of_app in Hx as [Hx|Hx]; [by apply Rcr|].
      exfalso. destruct (Hcid _ Hx) as (_ & _ & _ & Hy). by destruct (Hy _ Hc).
    - pose proof (Hkind _ Hc) as Ho. cbn in Ho. subst o. cbn in Hclo. subst h. done. }
  pose proof (manage_res hp policy sync fo ea s o s' e Hv Rcl Rloc Hno (fun c Hc => proj1 (Rkn c Hc)) (v_next _ Hv) H (fun c Hc => proj1 (Hreq c Hc))) as Hm.
  assert (f_cm s' = cm) as Hcm. { pose proof (m_step _ _ _ _ _ _ _ _ _ Hm) as Hx. congruence. }
  assert (Hall' : allinv False cm (ev ++ e)) by (by eapply allinv_moves).
  destruct Hall' as [Hv' _ _ Hh'].
  assert (Hcnx : forall c, known s c -> c <> 0 -> ECreated c ∉ e). { intros c Hc _ Hx. by destruct (Hcid _ Hx) as (_ & ? & _). }
  assert (Hkn' : forall c, known s c -> known s' c).
  { intros c Hc. unfold known. rewrite Hcm. destruct (decide (ECreated c ∈ e)) as [Hx|Hx]; [rewrite (ef_new _ _ _ _ He) by done; eauto|by rewrite (ef_old _ _ _ _ He) by done]. }
  assert (Hnk : forall c, known s' c -> known s c \/ ECreated c ∈ e).
  { intros c Hc. destruct (decide (ECreated c ∈ e)) as [Hx|Hx]; [by right|]. left. unfold known in Hc. by rewrite Hcm, (ef_old _ _ _ _ He) in Hc by done. }
  assert (H5 : sup5 s -> sup5 s') by (rewrite Hcm; apply (ef_rank _ _ _ _ He)).
  assert (Hrm : forall c, removed c e -> c <> 0 -> ((o = OConfirm c false (match o with OConfirm _ _ a => a | _ => false end) /\ c ∈ cm_shutout (f_cm s)) \/
      ((exists ask, o = OUnsubLast c ask) /\ c ∈ cm_unsub (f_cm s))) /\
      (forall ch, cm_children (f_cm s) !! c = Some ch -> ch_initreq ch = true -> c ∉ cm_initout cm) /\ (sup5 s -> cm_map cm !! c = None)).
  { intros c (k & abn & ask & Hx) Hc0. destruct (Hkind _ Hx) as (Ho & Hi & Hn). split; [|done].
    destruct Ho as [[-> ?]|[[-> ?]|[? _]]]; [left|right|done]; eauto. }
  destruct (m_q _ _ _ _ _ _ _ _ _ Hm) as (l & Hq & Hl). rewrite Forall_forall in Hl.
  assert (Hqin : forall m, m ∈ f_q s -> m ∈ f_q s') by (intros m Hx; rewrite Hq; apply elem_of_app; by left).
  assert (HX : forall c ch, cm_children (f_cm s) !! c = Some ch -> c <> 0 -> 5 <= rank (ch_state ch) -> UP s' c = UP s c).
  { intros c ch Hch Hc0 H5c. destruct (m_up _ _ _ _ _ _ _ _ _ Hm c ltac:(by exists ch) Hc0) as (x & Hx & _ & [->|Hx2]); [by rewrite app_nil_r in Hx|].
    exfalso. destruct (Hkind _ Hx2) as (_ & _ & ch' & Hch' & Hr). assert (ch' = ch) as -> by congruence. lia. }
  assert (Hold : forall c ch, c <> 0 -> cm_children (f_cm s) !! c = Some ch -> pc (post o) s' (ev ++ e) c ch).
  { intros c ch Hc0 Hch. destruct (Rch c ch Hc0 Hch) as [P1 P2 P3 P4 P5 P6 P7 P8]. assert (Hck : known s c) by (by exists ch).
    destruct (m_up _ _ _ _ _ _ _ _ _ Hm c Hck Hc0) as (x & Hux & Hxt & Hxe). rewrite Forall_forall in Hxt.
    assert (Hf' : c ∈ f_foreign s' <-> c ∈ f_foreign s) by (by apply (m_foreign _ _ _ _ _ _ _ _ _ Hm)).
    assert (Hb' : c ∈ f_bye s' <-> c ∈ f_bye s) by (by rewrite (m_bye _ _ _ _ _ _ _ _ _ Hm)).
    assert (Hpost : post o <> HCreate c) by (destruct o as [| | | | | |? [] ?| | | | | | | | | | |]; done).
    assert (Hdn : dnok c (c ∈ f_foreign s') (sup5 s') (5 <= rank (ch_state ch)) (c ∈ f_bye s') (EShutReq c ∈ ev ++ e) (DN s' c) /\
                  (MInitReq c ∈ DN s c -> MInitReq c ∈ DN s' c) /\ (EInitReq c ∈ e -> MInitReq c ∈ DN s' c)).
    { destruct (decide (EInitReq c ∈ e)) as [Hi|Hi].
      - pose proof (Hkind _ Hi) as Ho. cbn in Ho. subst o. cbn in Hclo. subst h. rewrite decide_True in P1 by done. cbn in Rcq.
        destruct (ef_createq _ _ _ _ He (creates (f_q s))) as [_ He0]. { rewrite <-Rcq. apply take_first_head. }
        rewrite (m_dni _ _ _ _ _ _ _ _ _ Hm c Hck Hc0 He0). rewrite He0. split; [|split; intros; apply elem_of_app; [by left|right; left]].
        assert (Hs' : EShutReq c ∈ ev ++ [EInitReq c] <-> EShutReq c ∈ ev). { rewrite elem_of_app, elem_of_list_singleton. split; [intros [?|?]; done|by left]. }
        unfold dnok. rewrite Hf', Hb', Hs'. cbn in P1. destruct P1 as [(Q1 & Q2 & Q3 & Q4)|[(Q1 & Q2 & Q3 & Q4)|[(Q1 & Q2 & Q3 & Q4)|(Q1 & Q2 & Q3 & Q4)]]].
        + left. split_and!; try done. destruct Q4 as [Q4|[Q4|Q4]]; inversion Q4 as [Q5]; [rewrite Q5; cbn; auto].
        + right. left. split_and!; try done. destruct Q4 as [Q4|[Q4|[Q4 [Q5|Q5]]]]; try done. inversion Q5 as [Q6]. rewrite Q6. cbn. right. right. split; [auto|]. by right.
        + destruct Q4 as [Q4|[[_ Q4]|(_ & _ & Q4)]]; done.
        + destruct Q4 as [Q4|(_ & _ & Q4)]; done.
      - assert (Hh0 : h <> HCreate c).
        { intros ->. destruct o; try done; try (cbn in Hclo; congruence). cbn in Hclo. inversion Hclo; subst.
          destruct (ef_createq _ _ _ _ He (creates (f_q s))) as [_ He0]. { rewrite <-Rcq. apply take_first_head. }
          apply Hi. rewrite He0. left. }
        rewrite decide_False in P1 by done. cbn in P1. split; [|split; [|done]].
        + destruct (decide (EShutReq c ∈ e)) as [Hs|Hs].
          * assert (Hnd : NoDup (shutreqs (ev ++ e))) by apply (h_nodup _ _ Hh'). rewrite shutreqs_app in Hnd. apply NoDup_app in Hnd as (_ & N1 & N2).
            assert (Hna : EShutReq c ∉ ev). { intros Hx. apply (N1 c); by apply in_shutreqs. }
            rewrite (m_dns _ _ _ _ _ _ _ _ _ Hm c Hck Hc0 Hs Hi N2).
            assert (Hs' : EShutReq c ∈ ev ++ e <-> True) by (split; [done|intros _; apply elem_of_app; by right]).
            unfold dnok. rewrite Hf', Hb', Hs'. destruct P1 as [(Q1 & Q2 & Q3 & Q4)|[(Q1 & Q2 & Q3 & Q4)|[(Q1 & Q2 & Q3 & Q4)|(Q1 & Q2 & Q3 & Q4)]]]; try done.
            right. left. split_and!; try done. destruct Q4 as [Q4|[Q4|Q4]]; rewrite Q4; cbn; auto.
            right. right. split; [|by left]. intros Hf. pose proof (Hkind _ Hs) as Ho. cbn in Ho. destruct Ho as [->|Ho]; [|by rewrite Hcm].
            exfalso. assert (Hx : MCreate c ∈ DN s c) by (rewrite Q4; left). unfold DN in Hx. apply in_filter in Hx as [Hx _].
            apply elem_of_app in Hx as [Hx|Hx]; [apply Rdl in Hx as [?|[?|?]]; done|]. by apply (Htr c).
          * rewrite (m_dn _ _ _ _ _ _ _ _ _ Hm c Hck Hc0 Hs Hi).
            assert (Hs' : EShutReq c ∈ ev ++ e <-> EShutReq c ∈ ev) by (rewrite elem_of_app; clear -Hs; naive_solver).
            by eapply dnok_mono.
        + intros Hx. destruct (decide (EShutReq c ∈ e)) as [Hs|Hs]; [|by rewrite (m_dn _ _ _ _ _ _ _ _ _ Hm c Hck Hc0 Hs Hi)].
          assert (Hnd : NoDup (shutreqs (ev ++ e))) by apply (h_nodup _ _ Hh'). rewrite shutreqs_app in Hnd. apply NoDup_app in Hnd as (_ & _ & N2).
          rewrite (m_dns _ _ _ _ _ _ _ _ _ Hm c Hck Hc0 Hs Hi N2). apply elem_of_app. by left. }
    destruct Hdn as (Hdn1 & Hdn2 & Hdn3).
    assert (HUs : ch_state ch = AShutDown -> UP s' c = UP s c). { intros Hs. eapply HX; eauto. by rewrite Hs. }
    split.
    - rewrite decide_False by done. done.
    - intros Hs Hx. rewrite Hux in Hx. apply elem_of_app in Hx as [Hx|Hx]; [by apply P2|]. by apply Hxt in Hx.
    - intros Hs. rewrite Hb', HUs by done. by apply P3.
    - intros Hr. apply removed_app in Hr as [Hr|Hr].
      + destruct (P4 Hr) as (R1 & R2 & R3). split_and!; [done|by rewrite HUs|]. rewrite Hcm. intros Hx. apply (ef_unsub _ _ _ _ He) in Hx as [[Hx _]|(ask & -> & _)]; [done|].
        cbn in Hclo. subst h. by destruct Rh as (_ & _ & _ & _ & ? & _).
      + destruct (Hrm _ Hr Hc0) as ([[Ho Hso]|[[ask ->] Hun]] & _).
        * rewrite Ho in Hclo. cbn in Hclo. subst h. destruct Rh as (_ & _ & _ & T1 & T2 & T3 & _ & T4). pose proof (T4 _ Hch) as Hs.
          split_and!; [done|by rewrite HUs|]. rewrite Hcm. intros Hx. apply (ef_unsub _ _ _ _ He) in Hx as [[Hx _]|(ask & Ho' & _)]; [done|]. congruence.
        * destruct (P5 Hun) as (Hs & T1 & _). split_and!; [done|by rewrite HUs|]. rewrite Hcm. intros Hx.
          apply (ef_unsub _ _ _ _ He) in Hx as [[_ Hx]|(? & ? & _)]; [by apply (Hx ask)|done].
    - rewrite Hcm. intros Hx. apply (ef_unsub _ _ _ _ He) in Hx as [[Hx Hx2]|(ask & -> & Hso)].
      + destruct (P5 Hx) as (T1 & T2 & T3). split_and!; [done|by rewrite HUs|]. intros _. apply Hqin, T3. intros ->. destruct o; cbn in Hclo; try done.
        inversion Hclo; subst. by eapply Hx2.
      + cbn in Hclo. subst h. destruct Rh as (_ & _ & _ & _ & _ & T3 & _ & T4). pose proof (T4 _ Hch) as Hs. split_and!; [done|by rewrite HUs|]. by intros ?.
    - intros Ha. rewrite Hcm. apply elem_of_app in Ha as [Ha|Ha]; [|left; apply (ef_shutout _ _ _ _ He); by right].
      destruct (P6 Ha) as [Hso|[Hs Hu]]; [|right; split; [done|by rewrite HUs]].
      destruct (decide (h = HConfirm c)) as [->|Hne].
      + right. destruct Rh as (_ & _ & _ & _ & _ & T3 & _ & T4). pose proof (T4 _ Hch) as Hs. split; [done|by rewrite HUs].
      + left. apply (ef_shutout _ _ _ _ He). left. split; [done|]. intros subs ask ->. by apply Hne.
    - intros Hs Hu _. rewrite HUs in Hu by done. rewrite Hcm. destruct (decide (h = HConfirm c)) as [->|Hne].
      + destruct Rh as (_ & _ & Hso & _). destruct o as [| | | | | |c' subs ask| | | | | | | | | | |]; try done. cbn in Hclo. inversion Hclo; subst c'. destruct subs.
        * right. apply (ef_unsub _ _ _ _ He). right. by exists ask.
        * left. apply removed_app. right. exact (removes_confirm _ _ _ _ _ Hv Hst Hso).
      + destruct (P7 Hs Hu Hne) as [Hr|Hun]; [left; apply removed_app; by left|].
        destruct (decide (h = HUnsub c)) as [->|Hnu].
        * destruct o as [| | | | | | |c' ask| | | | | | | | | |]; try done. cbn in Hclo. inversion Hclo; subst c'. left. apply removed_app. right. exact (removes_unsub _ _ _ _ _ Hv Hst Hun).
        * right. apply (ef_unsub _ _ _ _ He). left. split; [done|]. intros ask ->. by apply Hnu.
    - intros Hi. apply (m_init _ _ _ _ _ _ _ _ _ Hm) in Hi as [[Hi|Hi] _]; [|left; by apply Hdn3].
      destruct (P8 Hi) as [T|[T|[(f & T)|[T1 T2]]]]; [left; by apply Hdn2|by right; left| |].
      + right. right. left. exists f. rewrite Hux. apply elem_of_app. by left.
      + right. right. right. rewrite Hf'. auto. }
  assert (Hlive : forall c, ECreated c ∈ ev -> ~ removed c ev -> exists i, cm_map (f_cm s) !! c = Some i /\ ci_actor i = Some c).
  { intros c Hc Hr. by destruct (h_live _ _ Hh c Hc). }
  split.
  - apply (m_clean _ _ _ _ _ _ _ _ _ Hm).
  - apply (m_local _ _ _ _ _ _ _ _ _ Hm).
  - intros c Hc. rewrite Hcm. apply Hnk in Hc as [Hc|Hc].
    + destruct (Rkn c Hc) as [H1 H2]. split.
      * destruct (ef_next _ _ _ _ He) as [Hn|(cfg & _ & Hn)]; rewrite Hn; lia.
      * intros Hc0. apply elem_of_app. left. auto.
    + split; [|intros _; apply elem_of_app; by right]. apply (h_next _ _ Hh'). apply elem_of_app. by right.
  - intros c Hc. apply elem_of_app in Hc as [Hc|Hc]; [by apply Hkn', Rcr|]. unfold known. rewrite Hcm, (ef_new _ _ _ _ He) by done. eauto.
  - intros c ch Hc0 Hch. rewrite Hcm in Hch. destruct (decide (ECreated c ∈ e)) as [Hc|Hc]; cycle 1.
    { apply Hold; [done|]. by rewrite (ef_old _ _ _ _ He) in Hch by done. }
    rewrite (ef_new _ _ _ _ He) in Hch by done. inversion Hch; subst ch; clear Hch.
    destruct (Hcid _ Hc) as (Hcn & Hck & _ & Hid). destruct (m_new _ _ _ _ _ _ _ _ _ Hm c Hc Hc0) as (N1 & N2 & N3 & N4 & N5).
    assert (Hna : EShutReq c ∉ ev ++ e). { intros Hx. apply elem_of_app in Hx as [Hx|Hx]; [by apply Rrq in Hx as [? _]|]. by apply Hid in Hx as [?|?]. }
    assert (Hpost : post o <> HCreate c) by (destruct o as [| | | | | |? [] ?| | | | | | | | | | |]; done).
    assert (Hnr : ~ removed c (ev ++ e)).
    { intros Hx. apply removed_app in Hx as [Hx|Hx]; [apply (h_removed _ _ Hh) in Hx as [Hx _]; lia|]. destruct Hx as (k & abn & ask & Hx). by apply Hid in Hx as [?|?]. }
    assert (Hnu : c ∉ cm_unsub cm).
    { intros Hx. apply (ef_unsub _ _ _ _ He) in Hx as [[Hx _]|(ask & _ & Hx)]; [by apply Run in Hx as [? _]|].
      apply (h_out _ _ Hh), Rrq in Hx as [? _]. done. }
    split; cbn [ch_state ch_initreq].
    + rewrite decide_False by done. rewrite N1. left. split_and!; [cbn; lia|done|done|by left].
    + intros _ Hx. destruct N2 as [N2|N2]; rewrite N2 in Hx; [by apply elem_of_nil in Hx|by apply elem_of_list_singleton in Hx].
    + done.
    + done.
    + by rewrite Hcm.
    + done.
    + done.
    + done.
  - intros c m Hx. apply (m_upl _ _ _ _ _ _ _ _ _ Hm) in Hx as [Hx| ->]; [by apply Rul|]. left. cbn. apply N.eqb_refl.
  - intros c m. unfold downl. rewrite (m_down _ _ _ _ _ _ _ _ _ Hm). apply Rdl.
  - intros Hx. apply (m_foreign' _ _ _ _ _ _ _ _ _ Hm) in Hx as [Hx|Hx]; [done|]. by destruct (Hcid _ Hx) as (_ & _ & ? & _).
  - intros c Hc a b Hab Hb.
    destruct (decide (ECreated c ∈ e)) as [Hce|Hce].
    { destruct (Hcid _ Hce) as (_ & _ & Hc0 & _). destruct (m_new _ _ _ _ _ _ _ _ _ Hm c Hce Hc0) as (_ & _ & Hx & _). apply Hx; [done|].
      rewrite Hab. apply elem_of_app. right. left. }
    apply (m_foreign' _ _ _ _ _ _ _ _ _ Hm) in Hc as [Hc|?]; [|done].
    rewrite Hq in Hab. apply app_eq_inv in Hab as [(k & H1 & H2)|(k & H1 & H2)].
    + destruct k as [|m k].
      * cbn in H2. rewrite app_nil_r in H1. assert (Hx : MTrigger c ∈ l) by (rewrite <-H2; left). apply Hl in Hx. cbn in Hx.
        destruct Hx as [[-> _]|[[? _]|[_ ?]]]; done.
      * cbn in H2. inversion H2; subst m b. apply elem_of_app in Hb as [Hb|Hb]; [by apply (Rct c Hc _ _ H1)|]. by apply Hl in Hb.
    + assert (Hx : MTrigger c ∈ l) by (rewrite H2; apply elem_of_app; right; left). apply Hl in Hx. cbn in Hx.
      destruct Hx as [[-> _]|[[? _]|[_ ?]]]; done.
  - destruct Rto as (t & r & Tq & T1 & T2). exists t, (r ++ l). rewrite Hq, Tq, (assoc_L (++)). split_and!; [done|done|].
    apply Forall_app. split; [done|]. apply Forall_forall. intros m Hx. apply Hl in Hx. by destruct m.
  - intros c Hc. rewrite Hcm.
    assert (Hnx : cm_next (f_cm s) <= cm_next cm). { destruct (ef_next _ _ _ _ He) as [Hn|(cfg & _ & Hn)]; rewrite Hn; lia. }
    assert (Hc' : EInitReq c ∈ e \/ ((c ∈ f_init s /\ c ∈ cm_initout cm) \/ MInitTimeout c ∈ f_q s)).
    { destruct Hc as [Hc|Hc].
      - apply (m_init _ _ _ _ _ _ _ _ _ Hm) in Hc as [[Hc|Hc] Hc2]; [|by left]. right. left. rewrite Hcm in Hc2. done.
      - rewrite Hq in Hc. apply elem_of_app in Hc as [Hc|Hc]; [by right; right|]. by apply Hl in Hc. }
    clear Hc. destruct Hc' as [Hc|Hc].
    + destruct (Hreq c (or_intror Hc)) as [Hck Hc0]. destruct (Rkn c Hck) as [Hlt Hcr]. split; [lia|].
      assert (Hnr : ~ removed c ev).
      { intros Hr. destruct Hck as [ch Hch]. pose proof (Rch c ch Hc0 Hch) as Hp. pose proof (Hkind _ Hc) as Ho. cbn in Ho. subst o. cbn in Hclo. subst h.
        destruct (p_rem _ _ _ _ _ Hp Hr) as [Hs _]. pose proof (p_dn _ _ _ _ _ Hp) as Hd. rewrite decide_True in Hd by done. rewrite Hs in Hd. cbn in Hd.
        destruct Hd as [(Q1 & _)|[(Q1 & _)|[(_ & _ & _ & Q4)|(_ & _ & _ & Q4)]]]; [lia|lia|destruct Q4 as [Q4|[[_ Q4]|(_ & _ & Q4)]]; done|destruct Q4 as [Q4|(_ & _ & Q4)]; done]. }
      destruct (Hlive c (Hcr Hc0) Hnr) as (i & Hi & Hac). eapply ent_kept; [exact Hmv|done|done| |].
      * intros Hr. destruct (Hrm _ Hr Hc0) as ([[Ho _]|[[? Ho] _]] & _); pose proof (Hkind _ Hc) as Ho2; cbn in Ho2; congruence.
      * intros j Hj. assert (j = i) as -> by congruence. eauto.
    + assert (Hc2 : c ∈ f_init s \/ MInitTimeout c ∈ f_q s) by (destruct Hc as [[? _]|?]; auto).
      destruct (Rent c Hc2) as [Hlt Hok]. split; [lia|].
      destruct (removed_dec c e) as [Hr|Hr]; [|by eapply ent_kept].
      destruct (decide (c = 0)) as [->|Hc0].
      { destruct Hr as (k & abn & ask & Hx). destruct (Hkind _ Hx) as (Ho & _ & Hn).
        assert (Hn0 : cm_map cm !! 0 = None); [|intros j Hj; congruence].
        destruct Ho as [[-> Hso]|[[-> Hun]|[_ ->]]].
        - apply (h_out _ _ Hh), Rrq in Hso as [_ ?]. done.
        - apply Run in Hun as [_ ?]. done.
        - apply Hn. rewrite (deactivate_state _ _ _ _ _ 0 Hst); [done|]. by exists k, abn, ask. }
      destruct (Hrm _ Hr Hc0) as (Ho & Hir & Hn0).
      destruct (decide (sup5 s)) as [H5s|H5s]; [intros j Hj; rewrite (Hn0 H5s) in Hj; done|]. exfalso.
      assert (Hck : known s c). { destruct Ho as [[_ Hx]|[_ Hx]]; [by apply (h_out _ _ Hh), Rrq in Hx as [? _]|by apply Run in Hx as [? _]]. }
      destruct Hck as [ch Hch]. pose proof (Rch c ch Hc0 Hch) as Hp.
      assert (Hgone : ch_state ch = AShutDown /\ UP s c = [] /\ (forall d, MInitTimeout d ∉ f_q s) /\ h <> HCreate c).
      { destruct Ho as [[Ho Hso]|[[ask Ho] Hun]].
        - rewrite Ho in Hclo. cbn in Hclo. subst h. destruct Rh as (_ & _ & _ & _ & _ & T3 & T5 & T4). auto.
        - rewrite Ho in Hclo. cbn in Hclo. subst h. destruct (p_un _ _ _ _ _ Hp Hun) as (T1 & T2 & _). auto. }
      destruct Hgone as (Hs & Hu & Hto & Hhc).
      destruct Hc as [[Hci Hcio]|Hc]; [|by apply Hto in Hc].
      destruct (p_init _ _ _ _ _ Hp Hci) as [T|[T|[(f & T)|[_ T]]]].
      * pose proof (p_dn _ _ _ _ _ Hp) as Hd. rewrite decide_False in Hd by done. cbn in Hd. rewrite Hs in Hd.
        destruct (p_up2 _ _ _ _ _ Hp Hs) as [Hby _].
        destruct Hd as [(Q1 & _)|[(Q1 & _)|[(_ & _ & Q3 & _)|(_ & _ & _ & Q4)]]]; [cbn in Q1; lia|cbn in Q1; lia|done|].
        destruct Q4 as [Q4|(_ & Q4 & _)]; [|done]. rewrite Q4 in T. by apply elem_of_nil in T.
      * by apply (Hir ch).
      * rewrite Hu in T. by apply elem_of_nil in T.
      * done.
  - rewrite Hcm. intros Hn Hpo. destruct (cm_map (f_cm s) !! 0) as [i|] eqn:Hi; cycle 1.
    + destruct (Rself eq_refl) as (a & b & Hab & Ha).
      { intros ->. destruct o; done. }
      exists a, (b ++ l). split; [|done]. rewrite Hq, Hab, <-(assoc_L (++)). done.
    + exfalso. destruct (v_self _ Hv _ Hi) as [Hac _]. destruct (removed_dec 0 e) as [Hr|Hr].
      * destruct Hr as (k & abn & ask & Hx). destruct (Hkind _ Hx) as (Ho & _). destruct Ho as [[-> Hso]|[[-> Hun]|[_ ->]]].
        -- apply (h_out _ _ Hh), Rrq in Hso as [_ ?]. done.
        -- apply Run in Hun as [_ ?]. done.
        -- done.
      * destruct (live_kept _ _ _ _ 0 i Hmv Hv Hr Hi) as (i' & Hi' & _); [rewrite Hac; eauto|congruence].
  - rewrite Hcm. intros c Hc _. apply (m_shut _ _ _ _ _ _ _ _ _ Hm). apply (ef_shutout _ _ _ _ He) in Hc as [[Hc Hno2]|Hc]; [|by right].
    left. apply Rsh; [done|]. intros ->. destruct o as [| | | | | |c' subs ask| | | | | | | | | | |]; try done. cbn in Hclo. inversion Hclo; subst. by eapply Hno2.
  - intros c Hc. apply (m_init _ _ _ _ _ _ _ _ _ Hm) in Hc as [_ Hc]. done.
  - pose proof (m_creates _ _ _ _ _ _ _ _ _ Hm) as Hcr. change (creates (f_q s') = creates (f_q s) ++ created e) in Hcr. rewrite Hcm.
    assert (Hpo : match post o with HCreate c => [c] | _ => [] end = []) by (destruct o as [| | | | | |? [] ?| | | | | | | | | | |]; done).
    rewrite Hpo, Hcr. cbn. pose proof (ef_createq _ _ _ _ He) as Hx.
    destruct o as [| | |c| | | | | | | | | | | | | |]; try (rewrite Hx, <-Rcq; destruct h; try done; cbn in Hclo; done).
    cbn in Hclo. subst h. destruct (Hx (creates (f_q s))) as [-> ->]; [rewrite <-Rcq; apply take_first_head|]. cbn. by rewrite app_nil_r.
  - pose proof (m_spawns _ _ _ _ _ _ _ _ _ Hm) as Hcr. change (spawns (f_q s') = spawns (f_q s) ++ spawnmsgs e) in Hcr. rewrite Hcm.
    assert (Hpo : match post o with HSpawn c => [c] | _ => [] end = []) by (destruct o as [| | | | | |? [] ?| | | | | | | | | | |]; done).
    rewrite Hpo, Hcr. cbn. pose proof (ef_spawnq _ _ _ _ He) as Hx.
    destruct o as [| |a ok| | | | | | | | | | | | | | |]; try (rewrite Hx, <-Rsq; destruct h; try done; cbn in Hclo; done).
    cbn in Hclo. subst h. destruct (Hx (spawns (f_q s))) as [-> ->]; [rewrite <-Rsq; apply take_first_head|]. by rewrite app_nil_r.
  - rewrite Hcm. intros c Hc. apply (ef_unsub _ _ _ _ He) in Hc as [[Hc _]|(ask & -> & Hc)].
    + apply Run in Hc as [? ?]. auto.
    + cbn in Hclo. subst h. destruct Rh as (? & ? & _). auto.
  - intros c Hc. apply elem_of_app in Hc as [Hc|Hc].
    + apply Rrq in Hc as [? ?]. auto.
    + destruct (Hreq c (or_introl Hc)) as [? ?]. auto.
  - intros Hx. rewrite Hq in Hx. apply elem_of_app in Hx as [Hx|Hx]; [|by apply Hl in Hx]. apply Rb0 in Hx.
    destruct (m_phase _ _ _ _ _ _ _ _ _ Hm) as [->|[_ (b & Hb)]]; [done|]. pose proof (Hkind _ Hb) as Ho. cbn in Ho. rewrite Hvo in Hx by done. done.
  - destruct Rz as (Z1 & Z2 & Z3). rewrite Hq. split_and!; (intros Hx; apply elem_of_app in Hx as [Hx|Hx]; [done|apply Hl in Hx; cbn in Hx]).
    + done.
    + by destruct (Hcid _ Hx) as (_ & _ & ? & _).
    + by destruct (Hreq 0 (or_introl Hx)) as [_ ?].
  - destruct o as [| | | | | |c subs ask| | | | | | | | | | |]; try done. destruct subs; [|done]. cbn in Hclo. subst h. cbn.
    destruct Rh as (_ & _ & _ & _ & _ & _ & Hto & _). intros d Hd. rewrite Hq in Hd. apply elem_of_app in Hd as [Hd|Hd]; [by apply Hto in Hd|]. by apply Hl in Hd.
Qed.

(** ** Messages without a child *)
Lemma UP_push s l c : (forall m, m ∈ l -> upm c m = false) -> UP (push s l) c = UP s c.
Proof.
  intros H. unfold UP. change (upl (push s l) c) with (upl s c). cbn. rewrite !List.filter_app, (filter_none (upm c) l) by done. by rewrite app_nil_r.
Qed.
Lemma DN_push s l c : (forall m, m ∈ l -> dnm c m = false) -> DN (push s l) c = DN s c.
Proof.
  intros H. unfold DN. change (downl (push s l) c) with (downl s c). cbn. rewrite (assoc_L (++)), List.filter_app, (filter_none (dnm c) l) by done. by rewrite app_nil_r.
Qed.
Lemma creates_app a b : creates (a ++ b) = creates a ++ creates b.
Proof. apply omap_app. Qed.
Lemma spawns_app a b : spawns (a ++ b) = spawns a ++ spawns b.
Proof. apply omap_app. Qed.
Lemma creates_none q : (forall c, MCreate c ∉ q) -> creates q = [].
Proof.
  induction q as [|m q IH]; intros H; [done|]. cbn. destruct m; try (apply IH; intros c' Hc; apply (H c'); by right). exfalso. apply (H c). left.
Qed.
Lemma spawns_none q : (forall c, MSpawn c ∉ q) -> spawns q = [].
Proof.
  induction q as [|m q IH]; intros H; [done|]. cbn. destruct m; try (apply IH; intros c' Hc; apply (H c'); by right). exfalso. apply (H a). left.
Qed.

Definition plain_msg (s : fstate) (m : fmsg) : Prop :=
  match m with
  | MTrigger a => a = 0
  | MInitResp c _ => c = 0
  | MUnsub c => True
  | MBye c => c = 0 /\ f_phase s = PLeft
  | _ => False
  end.
Lemma push_inv h s ev l : rinv h s ev -> (forall m, m ∈ l -> plain_msg s m) ->
  match h with
  | HNone => True
  | HUnsub c => MUnsub c ∈ l
  | HLeave => cm_map (f_cm s) !! 0 = None -> l = [MBye 0] /\ MTrigger 0 ∉ f_q s
  | _ => False
  end -> rinv HNone (push s l) ev.
Proof.
  intros [Rcl Rloc Rkn Rcr Rch Rul Rdl Rf0 Rct Rto Rent Rself Rsh Rio Rcq Rsq Run Rrq Rb0 Rz Rh] Hl Hh.
  assert (Hno : forall c m, c <> 0 -> m ∈ l -> upm c m = false /\ dnm c m = false).
  { intros c m Hc Hm. apply Hl in Hm. destruct m; cbn in Hm |- *; try done; split; try done; try (apply N.eqb_neq; congruence).
    apply N.eqb_neq. destruct Hm; congruence. }
  assert (HU : forall c, c <> 0 -> UP (push s l) c = UP s c) by (intros c Hc; apply UP_push; intros m Hm; by apply (Hno c m)).
  assert (HD : forall c, c <> 0 -> DN (push s l) c = DN s c) by (intros c Hc; apply DN_push; intros m Hm; by apply (Hno c m)).
  assert (Hin : forall m, m ∈ f_q s -> m ∈ f_q (push s l)) by (intros m Hm; cbn; apply elem_of_app; by left).
  assert (Hh1 : forall c, h <> HCreate c) by (intros c ->; done).
  assert (Hh2 : forall c, h <> HConfirm c) by (intros c ->; done).
  assert (Hh3 : forall c, h <> HSpawn c) by (intros c ->; done).
  split; try done.
  - intros c Hc Hc0. destruct (Rcl c Hc Hc0) as (B1 & B2 & B3 & B4). split_and!; try done; try apply B4.
    intros m Hm. cbn in Hm. apply elem_of_app in Hm as [Hm|Hm]; [by apply B1|by apply Hno].
  - intros c ch Hc0 Hch. destruct (Rch c ch Hc0 Hch) as [P1 P2 P3 P4 P5 P6 P7 P8]. rewrite decide_False in P1 by done. split.
    + rewrite decide_False by done. by rewrite HD.
    + by rewrite HU.
    + by rewrite HU.
    + by rewrite HU.
    + rewrite HU by done. intros Hx. destruct (P5 Hx) as (T1 & T2 & T3). split_and!; try done. intros _.
      destruct (decide (h = HUnsub c)) as [->|Hne]; [cbn; apply elem_of_app; by right|]. by apply Hin, T3.
    + by rewrite HU.
    + rewrite HU by done. intros T1 T2 _. by apply P7.
    + rewrite HU, HD by done. done.
  - intros c Hc a b Hab Hb. cbn in Hab. assert (Hlc : forall m, m ∈ l -> m <> MCreate c) by (intros m Hm ->; by apply Hl in Hm).
    apply app_eq_inv in Hab as [(k & H1 & H2)|(k & H1 & H2)].
    + destruct k as [|m k].
      * cbn in H2. apply (Hlc (MCreate c)); [|done]. rewrite <-H2. by right.
      * cbn in H2. inversion H2; subst m b. apply elem_of_app in Hb as [Hb|Hb]; [by apply (Rct c Hc _ _ H1)|]. by apply Hlc in Hb.
    + apply (Hlc (MCreate c)); [|done]. rewrite H2. apply elem_of_app. right. by right.
  - destruct Rto as (t & r & Tq & T1 & T2). exists t, (r ++ l). cbn. rewrite Tq, (assoc_L (++)). split_and!; [done|done|].
    apply Forall_app. split; [done|]. apply Forall_forall. intros m Hm. apply Hl in Hm. by destruct m.
  - intros c [Hc|Hc]; [apply Rent; by left|]. cbn in Hc. apply elem_of_app in Hc as [Hc|Hc]; [apply Rent; by right|]. by apply Hl in Hc.
  - intros Hn _. destruct (decide (h = HLeave)) as [->|Hne].
    + destruct (Hh Hn) as [-> Ht]. exists (f_q s), []. done.
    + destruct (Rself Hn Hne) as (a & b & Hab & Ha). exists a, (b ++ l). cbn. rewrite Hab, <-(assoc_L (++)). done.
  - intros c Hc _. by apply Rsh.
  - cbn -[creates]. rewrite creates_app, (creates_none l), app_nil_r by (intros c Hc; by apply Hl in Hc). rewrite <-Rcq. destruct h; done.
  - cbn -[spawns]. rewrite spawns_app, (spawns_none l), app_nil_r by (intros c Hc; by apply Hl in Hc). rewrite <-Rsq. destruct h; done.
  - intros Hx. cbn in Hx. apply elem_of_app in Hx as [Hx|Hx]; [by apply Rb0|]. apply Hl in Hx as [_ ?]. done.
  - destruct Rz as (Z1 & Z2 & Z3). cbn. split_and!; (intros Hx; apply elem_of_app in Hx as [Hx|Hx]; [done|by apply Hl in Hx]).
Qed.

(** ** A message is taken from the queue *)
Definition hole_of (m : fmsg) : hole :=
  match m with MCreate c => HCreate c | MSpawn a => HSpawn a | MShutResp c => HConfirm c | MUnsub c => HUnsub c | _ => HNone end.
Definition popped (s : fstate) (m : fmsg) (q : list fmsg) : fstate :=
  match m with
  | MInitResp c _ => set_init (set_q s q) (f_init s ∖ {[c]})
  | MShutResp c => set_shut (set_q s q) (f_shut s ∖ {[c]})
  | _ => set_q s q
  end.
Lemma popped_eq s m q : f_cm (popped s m q) = f_cm s /\ f_q (popped s m q) = q /\ f_up (popped s m q) = f_up s /\ f_down (popped s m q) = f_down s /\
  f_foreign (popped s m q) = f_foreign s /\ f_bye (popped s m q) = f_bye s /\ f_phase (popped s m q) = f_phase s /\
  (forall c, c ∈ f_init (popped s m q) -> c ∈ f_init s /\ forall f, m <> MInitResp c f) /\
  (forall c, c ∈ f_shut s -> m <> MShutResp c -> c ∈ f_shut (popped s m q)) /\ (forall c, c ∈ f_shut (popped s m q) -> c ∈ f_shut s).
Proof.
  destruct m; cbn; split_and!; try done; intros d Hd; try done.
  - split; [set_solver|]. intros f Hx. inversion Hx; subst. set_solver.
  - intros Hne. apply elem_of_difference. split; [done|]. intros Hx. apply elem_of_singleton in Hx as ->. done.
  - set_solver.
Qed.
Lemma UP_pop s m q c : f_q s = m :: q -> UP s c = (if upm c m then [m] else []) ++ UP (popped s m q) c.
Proof.
  intros Hq. destruct (popped_eq s m q) as (_ & E1 & E2 & _). unfold UP, upl. rewrite Hq, E1, E2. cbn. by destruct (upm c m).
Qed.
Lemma DN_pop s m q c : f_q s = m :: q -> dnm c m = false -> DN s c = DN (popped s m q) c.
Proof.
  intros Hq Hm. destruct (popped_eq s m q) as (_ & E1 & _ & E2 & _). unfold DN, downl. rewrite Hq, E1, E2, !List.filter_app. cbn. by rewrite Hm.
Qed.

Lemma no_timeouts s ev m q h : rinv h s ev -> f_q s = m :: q -> ~ is_timeout m -> forall d, MInitTimeout d ∉ q.
Proof.
  intros R Hq Hm d Hd. destruct (r_to _ _ _ R) as (t & r & Tq & T1 & T2). rewrite Hq in Tq. destruct t as [|m' t].
  - cbn in Tq. subst r. inversion T2; subst. rewrite Forall_forall in H2. by apply H2 in Hd.
  - cbn in Tq. inversion Tq; subst. inversion T1; subst. done.
Qed.

Lemma pop_inv s ev m q : allinv False (f_cm s) ev -> rinv HNone s ev -> f_q s = m :: q ->
  match m with MCreate _ | MSpawn _ | MInitResp _ _ | MTrigger _ | MInitTimeout _ | MUnsub _ | MShutResp _ => True | MInitReq c => c = 0 | _ => False end ->
  rinv (hole_of m) (popped s m q) ev.
Proof.
  intros Hall R Hq Hm. pose proof R as [Rcl Rloc Rkn Rcr Rch Rul Rdl Rf0 Rct Rto Rent Rself Rsh Rio Rcq Rsq Run Rrq Rb0 Rz Rh].
  destruct (popped_eq s m q) as (E1 & E2 & E3 & E4 & E5 & E6 & E7 & E8 & E9 & E10).
  assert (Hin : forall x, x ∈ f_q (popped s m q) -> x ∈ f_q s) by (intros x Hx; rewrite Hq; rewrite E2 in Hx; by right).
  assert (Eu : forall c, upl (popped s m q) c = upl s c) by (intros c; unfold upl; by rewrite E3).
  assert (Ed : forall c, downl (popped s m q) c = downl s c) by (intros c; unfold downl; by rewrite E4).
  assert (Ek : forall c, known (popped s m q) c <-> known s c) by (intros c; unfold known; by rewrite E1).
  assert (Hzero : forall c, (m = MShutResp c \/ m = MCreate c) -> c <> 0).
  { intros c Hc ->. destruct Rz as (Z1 & Z2 & _). rewrite Hq in Z1, Z2. destruct Hc as [->| ->]; [apply Z1; left|apply Z2; left]. }
  assert (Hkn : forall c, c <> 0 -> upm c m = true \/ dnm c m = true -> known s c).
  { intros c Hc Hx. destruct (cm_children (f_cm s) !! c) eqn:Hch; [by eexists|]. exfalso.
    destruct (Rcl c) as (B1 & _); [intros [? ?]; congruence|done|]. destruct (B1 m) as [B2 B3]; [rewrite Hq; left|]. destruct Hx; congruence. }
  assert (Hconf : forall c, m = MShutResp c -> known s c /\ c <> 0 /\ c ∈ cm_shutout (f_cm s) /\ c ∉ cm_unsub (f_cm s) /\ ~ removed c ev /\ UP (popped s m q) c = [] /\
     (forall ch, cm_children (f_cm s) !! c = Some ch -> ch_state ch = AShutDown)).
  { intros c ->. assert (Hc0 : c <> 0) by (apply Hzero; by left). assert (Hck : known s c) by (apply Hkn; [done|]; left; apply N.eqb_refl).
    destruct Hck as [ch Hch]. pose proof (Rch c ch Hc0 Hch) as P. pose proof (UP_pop s _ _ c Hq) as HU. cbn [upm] in HU. rewrite N.eqb_refl in HU. cbn [app] in HU.
    assert (Hs : ch_state ch = AShutDown). { destruct (decide (ch_state ch = AShutDown)) as [|Hx]; [done|]. exfalso. apply (p_up1 _ _ _ _ _ P Hx). rewrite HU. left. }
    destruct (p_up2 _ _ _ _ _ P Hs) as [_ [Hx|(x & Hx & Hx2)]]; [congruence|].
    split_and!; try done.
    - by eexists.
    - destruct (p_ask _ _ _ _ _ P) as [?|[_ ?]]; [|done|congruence]. pose proof (p_dn _ _ _ _ _ P) as Hd. rewrite Hs in Hd.
      destruct Hd as [(Q1 & _)|[(Q1 & _)|[(_ & Q2 & _)|(_ & Q2 & _)]]]; [cbn in Q1; lia|cbn in Q1; lia|done|done].
    - intros Hx3. destruct (p_un _ _ _ _ _ P Hx3) as (_ & Hx4 & _). congruence.
    - intros Hx3. destruct (p_rem _ _ _ _ _ P Hx3) as (_ & Hx4 & _). congruence.
    - rewrite Hx in HU. destruct x as [|y x]; [by injection HU|]. rewrite <-app_comm_cons in HU. injection HU as -> _. exfalso. apply Hx2. left.
    - intros ch' Hch'. congruence. }
  split; rewrite ?E1, ?E2, ?E5, ?E6, ?E7.
  - intros c Hc Hc0. rewrite Ek in Hc. destruct (Rcl c Hc Hc0) as (B1 & B2 & B3 & B4 & B5 & B6 & B7). rewrite Eu, Ed, E5, E6. split_and!; try done.
    + intros x Hx. by apply B1, Hin.
    + intros Hx. by apply E8 in Hx as [? _].
    + intros Hx. by apply E10 in Hx.
  - intros c. rewrite Eu, Ed, E5. apply Rloc.
  - intros c. rewrite Ek. apply Rkn.
  - intros c. rewrite Ek. apply Rcr.
  - intros c ch Hc0 Hch. destruct (Rch c ch Hc0 Hch) as [P1 P2 P3 P4 P5 P6 P7 P8]. rewrite decide_False, app_nil_l in P1 by done. pose proof (UP_pop s m q c Hq) as HU.
    assert (HUe : UP s c = [] -> UP (popped s m q) c = []). { rewrite HU. intros Hx. by apply app_eq_nil in Hx as [_ ?]. }
    assert (HDe : (if decide (hole_of m = HCreate c) then [MCreate c] else []) ++ DN (popped s m q) c = DN s c).
    { destruct (dnm c m) eqn:Hd; cycle 1.
      - rewrite <-(DN_pop s m q c Hq Hd). destruct (decide (hole_of m = HCreate c)) as [Hx|]; [|done]. destruct m; inversion Hx; subst. cbn in Hd. by rewrite N.eqb_refl in Hd.
      - destruct m; cbn in Hd, Hm; try done; apply N.eqb_eq in Hd; subst; [|done]. cbn. rewrite decide_True by done.
        revert P1. unfold DN. change (downl (set_q s q) c) with (downl s c). cbn. rewrite Hq, !List.filter_app. cbn. rewrite N.eqb_refl.
        destruct (List.filter (dnm c) (downl s c)) as [|y l] eqn:El; [done|]. intros P1. exfalso.
        assert (Hy : y = MInitReq c \/ y = MShutReq c \/ y = MBye c).
        { apply Rdl. assert (Hy : y ∈ List.filter (dnm c) (downl s c)) by (rewrite El; left). by apply in_filter in Hy as [? _]. }
        cbn in P1.
        assert (Hb : forall L, y :: l ++ MCreate c :: List.filter (dnm c) q = L -> MCreate c ∈ L /\ head L = Some y).
        { intros L <-. split; [|done]. right. apply elem_of_app. right. left. }
        assert (Hb' : forall L, y :: l ++ MCreate c :: List.filter (dnm c) q = L -> L ∈ [[]; [MCreate c]; [MInitReq c]; [MShutReq c]; [MBye c]; [MCreate c; MShutReq c];
            [MInitReq c; MShutReq c]; [MShutReq c; MInitReq c]; [MInitReq c; MBye c]; [MBye c; MInitReq c]] -> False).
        { intros L HL Hin'. apply Hb in HL as [b1 b2]. clear -b1 b2 Hin' Hy.
          repeat (apply elem_of_cons in Hin' as [->|Hin']; [cbn in b2; destruct Hy as [->|[->| ->]]; inversion b2; repeat (apply elem_of_cons in b1 as [b1|b1]; [by inversion b1|]); by apply elem_of_nil in b1|]).
          by apply elem_of_nil in Hin'. }
        destruct P1 as [(_ & _ & _ & Q4)|[(_ & _ & _ & Q4)|[(_ & _ & _ & Q4)|(_ & _ & _ & Q4)]]];
          repeat match goal with H : _ \/ _ |- _ => destruct H as [H|H] | H : _ /\ _ |- _ => destruct H end;
          match goal with H : _ :: _ ++ _ = ?L |- _ => apply (Hb' _ H); clear; set_solver end. }
    split; rewrite ?E1, ?E2, ?E5, ?E6.
    + rewrite HDe. done.
    + intros Hs Hx. apply (P2 Hs). rewrite HU. apply elem_of_app. by right.
    + intros Hs. destruct (P3 Hs) as [Hb Hu]. split; [done|]. destruct Hu as [Hu|(x & Hx & Hx2)]; [left; auto|].
      rewrite HU in Hx. destruct (upm c m) eqn:Hum; [|right; by exists x]. destruct x as [|y x]; [left; cbn in Hx; by inversion Hx|].
      right. exists x. cbn in Hx. inversion Hx. split; [done|]. intros Hy. apply Hx2. by right.
    + intros Hr. destruct (P4 Hr) as (? & ? & ?). auto.
    + intros Hu. destruct (P5 Hu) as (T1 & T2 & T3). split_and!; [done|auto|]. intros Hne. rewrite Hq in T3.
      destruct (elem_of_cons q (MUnsub c) m) as [Hx _]. destruct (Hx (T3 ltac:(done))) as [<-|?]; [by destruct Hne|done].
    + intros Ha. destruct (P6 Ha) as [?|[? ?]]; auto.
    + intros Hs Hu Hne. destruct (upm c m) eqn:Hum; [|rewrite HU in P7; auto].
      destruct (P3 Hs) as [_ Hx]. rewrite HU, Hu in Hx. cbn in Hx. destruct Hx as [?|(x & Hx & _)]; [done|]. destruct x as [|y x]; [|cbn in Hx; inversion Hx; by destruct x].
      cbn in Hx. inversion Hx; subst. by destruct Hne.
    + intros Hi. apply E8 in Hi as [Hi Hi2]. destruct (P8 Hi) as [T|[T|[(f & T)|T]]]; [|by right; left| |by right; right; right].
      * left. rewrite <-HDe in T. apply elem_of_app in T as [T|T]; [|done]. destruct (decide (hole_of m = HCreate c)); [by apply elem_of_list_singleton in T|by apply elem_of_nil in T].
      * right. right. left. exists f. rewrite HU in T. apply elem_of_app in T as [T|T]; [|done]. exfalso. destruct (upm c m); [|by apply elem_of_nil in T].
        apply elem_of_list_singleton in T as <-. by eapply Hi2.
  - intros c x. rewrite Eu. apply Rul.
  - intros c x. rewrite Ed. apply Rdl.
  - done.
  - intros c Hc a b Hab. apply (Rct c Hc (m :: a)). by rewrite Hq, Hab.
  - destruct Rto as (t & r & Tq & T1 & T2). rewrite Hq in Tq. destruct t as [|m' t].
    + cbn in Tq. subst r. inversion T2; subst. exists [], q. done.
    + cbn in Tq. inversion Tq; subst. inversion T1; subst. by exists t, r.
  - intros c [Hc|Hc].
    + apply E8 in Hc as [Hc _]. apply Rent. by left.
    + apply Rent. right. rewrite Hq. by right.
  - intros Hn _. destruct (Rself Hn ltac:(done)) as (a & b & Hab & Ha). rewrite Hq in Hab. destruct a as [|y a].
    + cbn in Hab. inversion Hab; subst. done.
    + cbn in Hab. inversion Hab; subst. exists a, b. split; [done|]. intros Hx. apply Ha. by right.
  - intros c Hc Hne. apply E9; [by apply Rsh|]. intros ->. by apply Hne.
  - intros c Hc. apply E8 in Hc as [Hc _]. by apply Rio.
  - rewrite <-Rcq, Hq. by destruct m.
  - rewrite <-Rsq, Hq. by destruct m.
  - intros c. rewrite Ek. apply Run.
  - intros c. rewrite Ek. apply Rrq.
  - intros Hx. apply Rb0. rewrite Hq. by right.
  - destruct Rz as (Z1 & Z2 & Z3). rewrite Hq in Z1, Z2, Z3. split_and!; intros Hx; [apply Z1|apply Z2|apply Z3]; by right.
  - destruct m; cbn [hole_of]; try done.
    + split; [|apply Hzero; by right]. apply Ek, Hkn; [apply Hzero; by right|]. right. apply N.eqb_refl.
    + destruct (Hconf c eq_refl) as (T1 & T2 & T3 & T4 & T5 & T6 & T7). split_and!; try done. eapply no_timeouts; eauto.
    + eapply no_timeouts; eauto.
Qed.
End inv.
