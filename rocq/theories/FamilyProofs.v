(** The child manager of an orderly family never fails. *)
From stdpp Require Import base list gmap.
From Verif Require Import Base ChildMgrModel ChildMgrSpec ChildMgrProofs ChildMgrTrace ChildMgrFacts FamilyModel FamilySpec FamilySteps FamilyFold FamilyInv FamilyChild.
Open Scope N_scope.

Definition has_actor (s : cstate) (a : N) : Prop := exists i, cm_map s !! a = Some i /\ is_Some (ci_actor i).
(** What an operation of the child manager needs. *)
Definition can (s : cstate) (o : cop) : Prop :=
  match o with
  | OOnCreate a => a ∈ cm_createq s -> has_actor s a
  | OOnInit a true => okent s a
  | OTrigger a => has_actor s a
  | OConfirm a _ _ => a ∈ cm_shutout s -> has_actor s a
  | OUnsubLast a _ => a ∈ cm_unsub s -> has_actor s a
  | OVoteShutdown | ODeactivate _ _ => has_actor s 0
  | _ => True
  end.

Section proofs.
Context (hp : bool) (policy : spolicy) (sync : bool).
Notation step := (cstep hp policy sync).
Notation manage := (manage hp policy sync).
Notation manage0 := (manage0 hp policy sync).
Notation fstep := (fstep hp policy sync).

Lemma remove_ok s a ask : has_actor s a -> exists r, remove_child policy s a ask = Ok r.
Proof.
  intros (i & Hi & c & Hc). unfold remove_child. rewrite Hi.
  match goal with |- exists r, match ?p with _ => _ end = Ok r => destruct p as [s1 e1] end. rewrite Hc.
  match goal with |- exists r, match ?p with _ => _ end = Ok r => destruct p as [[[s3 e3] i3] er] end. eauto.
Qed.

Lemma step_ok s o : cinv s -> can s o -> exists s' e, step s o = Ok (s', e).
Proof.
  intros Hv Hc. assert (Hp : (exists r, step s o = Ok r) -> exists s' e, step s o = Ok (s', e)) by (intros [[s' e] H]; eauto). apply Hp. clear Hp.
  destruct o; cbn -[on_spawn on_create on_init remove_child handle_shutdown deactivate on_shutdown_confirm on_shutdown_trigger on_spawn_timer] in *; eauto.
  - destruct (take_first a (cm_spawnq s)) as [q|] eqn:Hq; [|eauto]. apply take_first_in in Hq as [Hq _].
    destruct (v_q _ Hv _ Hq) as (i & Hi & _). unfold on_spawn. change (cm_map (set_spawnq s q)) with (cm_map s). rewrite Hi.
    destruct (negb (ci_active i)); [eauto|]. destruct (ok && _); [eauto|].
    match goal with |- exists r, match ?p with _ => _ end = Ok r => destruct p as [[s1 e1] []] end; cbn; eauto.
  - destruct (take_first a (cm_createq s)) as [q|] eqn:Hq; [|eauto]. apply take_first_in in Hq as [Hq _]. unfold on_create.
    destruct (Hc Hq) as (i & Hi & _). change (cm_map (set_createq s q)) with (cm_map s). rewrite Hi. eauto.
  - case_bool_decide; [|eauto]. unfold on_init. change (cm_map (set_initout s _)) with (cm_map s). destruct failed.
    + match goal with |- context [if ?b then _ else _] => destruct b end.
      * destruct (cm_initreq _); [destruct (_ =? _); eauto|eauto].
      * destruct (cm_map s !! a) as [i|] eqn:Hi; [|eauto]. destruct (Hc _ Hi) as [c ->]. eauto.
    + destruct (cm_map s !! a); eauto.
  - destruct Hc as (i & Hi & c & Hac). unfold on_shutdown_trigger. rewrite Hi. unfold request_shutdown. destruct (ci_shut i); [|eauto..]. rewrite Hac.
    destruct (c =? 0); [|eauto]. destruct hp; [eauto|]. case_bool_decide; [eauto|].
    match goal with |- exists r, match ?p with _ => _ end = Ok r => destruct p as [s3 e3] end. eauto.
  - case_bool_decide as Hb; [|eauto]. destruct (Hc Hb) as (i & Hi & c & Hac). unfold on_shutdown_confirm. change (cm_map (set_shutout s _)) with (cm_map s).
    rewrite Hi, Hac. destruct subs; [eauto|].
    destruct (remove_ok (put_info (set_shutout s (cm_shutout s ∖ {[a]})) a (i_shut i SConfirmed)) a ask) as [[s2 e2] ->]; [|cbn; eauto].
    eexists. split; [apply lookup_insert|]. cbn. by rewrite Hac.
  - case_bool_decide as Hb; [|eauto]. apply remove_ok. destruct (Hc Hb) as (i & Hi & Hac). by exists i.
  - case_bool_decide; [|eauto]. unfold handle_shutdown. destruct Hc as (i & -> & _).
    match goal with |- exists r, match ?p with _ => _ end = Ok r => destruct p as [s3 e3] end. eauto.
  - case_bool_decide; [|eauto]. destruct (handle_start _ _). eauto.
  - destruct (cm_timers s !! id) as [d|] eqn:Ht; [|eauto]. destruct (d <=? cm_now s); [|eauto]. unfold on_spawn_timer.
    destruct (v_timers _ Hv id) as [key Hk]; [by eexists|]. rewrite Hk. destruct (v_spawning _ Hv _ _ Hk) as (_ & _ & _ & i & Hi & _).
    change (cm_map (set_timing s _ _ _)) with (cm_map s). rewrite Hi. destruct (_ <=? 4); eauto.
  - destruct (sup_moves _ _ _); eauto.
  - destruct (cm_children s !! c); [|eauto]. destruct (decide _); eauto.
  - case_bool_decide; [|eauto]. unfold deactivate. destruct (_ && _); [by apply remove_ok|eauto].
Qed.

(** ** The rest of the family *)
Lemma react_bye fo ea s x : f_bye (react hp fo ea s x) = f_bye s.
Proof. destruct x; cbn; unfold from; try done; repeat (case_match; cbn; try done). Qed.
Lemma fold_bye fo ea e : forall s, f_bye (foldl (react hp fo ea) s e) = f_bye s.
Proof. induction e as [|x e IH]; intros s; [done|]. cbn. by rewrite IH, react_bye. Qed.
Lemma react_phase fo ea s x : (forall b, x <> EVoteShutdown b) -> f_phase (react hp fo ea s x) = f_phase s.
Proof. intros Hx. destruct x; cbn; unfold from; try done; repeat (case_match; cbn; try done). by destruct (Hx true). Qed.
Lemma fold_phase fo ea e : (forall b, EVoteShutdown b ∉ e) -> forall s, f_phase (foldl (react hp fo ea) s e) = f_phase s.
Proof.
  induction e as [|x e IH]; intros He s; [done|]. cbn. rewrite IH, react_phase; [done|..].
  - intros b ->. apply (He b). left.
  - intros b Hb. apply (He b). by right.
Qed.
Lemma react_cm fo ea s x : f_cm (react hp fo ea s x) = f_cm s.
Proof. destruct x; cbn; unfold from; try done; repeat (case_match; cbn; try done). Qed.
Lemma fold_cm fo ea e : forall s, f_cm (foldl (react hp fo ea) s e) = f_cm s.
Proof. induction e as [|x e IH]; intros s; [done|]. cbn. by rewrite IH, react_cm. Qed.

Lemma manage_ok fo ea s ev o : allinv False (f_cm s) ev -> can (f_cm s) o -> match o with OChild _ _ => False | _ => True end -> exists s' e, manage fo ea s o = Ok (s', e) /\
  allinv False (f_cm s') (ev ++ e) /\ f_bye s' = f_bye s /\ (o <> OVoteShutdown -> f_phase s' = f_phase s) /\ step (f_cm s) o = Ok (f_cm s', e).
Proof.
  intros Ha Hc Hno. destruct (step_ok (f_cm s) o) as (cm & e & H); [by destruct Ha|done|].
  pose proof (ef_kind _ _ _ _ (step_eff hp policy sync _ _ _ _ ltac:(by destruct Ha) Hno H)) as Hk. rewrite Forall_forall in Hk.
  unfold FamilyModel.manage. rewrite H. cbn. eexists _, _. split; [reflexivity|]. cbn. rewrite fold_cm, fold_bye. cbn. split_and!; try done.
  - by eapply allinv_step.
  - intros Ho. rewrite fold_phase; [done|]. intros b Hb. by apply Hk in Hb.
Qed.

(** * The invariant *)
Record finv (s : fstate) (ev : list cevent) : Prop := {
  fi_all : allinv False (f_cm s) ev;
  fi_bye : 0 ∈ f_bye s -> f_phase s = PLeft;
  fi_rinv : 0 ∉ f_bye s -> rinv HNone s ev
}.

Lemma entry0 s ev : allinv False (f_cm s) ev -> rinv HNone s ev -> f_phase s <> PLeft -> has_actor (f_cm s) 0.
Proof.
  intros Ha R Hp. destruct (cm_map (f_cm s) !! 0) as [i|] eqn:Hi.
  - exists i. split; [done|]. destruct (v_self _ (ai_c _ _ _ Ha) _ Hi) as [-> _]. by eexists.
  - exfalso. destruct (r_self _ _ _ R Hi) as (a & b & Hab & _); [done|]. apply Hp, (r_bye0 _ _ _ R). rewrite Hab. apply elem_of_app. right. left.
Qed.
Lemma live_actor s ev c h : allinv False (f_cm s) ev -> rinv h s ev -> known s c -> c <> 0 -> ~ removed c ev -> has_actor (f_cm s) c.
Proof.
  intros Ha R Hk Hc Hr. destruct (r_known _ _ _ R c Hk) as [_ Hcr]. destruct (h_live _ _ (ai_h _ _ _ Ha) c (Hcr Hc)) as [(i & Hi & Hac)|?]; [|done].
  exists i. split; [done|]. by rewrite Hac.
Qed.

(** An operation of the child manager which is not bound to a message. *)
Lemma free_inv fo ea s ev o : finv s ev -> closes HNone o -> (forall c, o <> OTrigger c) -> o <> OVoteShutdown -> can (f_cm s) o -> post o = HNone ->
  exists s' e, manage fo ea s o = Ok (s', e) /\ finv s' (ev ++ e) /\ f_bye s' = f_bye s /\ f_phase s' = f_phase s.
Proof.
  intros [Ha Hb Hr] Hcl Htr Hvo Hcan Hpo. destruct (manage_ok fo ea s ev o Ha Hcan) as (s' & e & H & Ha' & Hb' & Hp' & _); [by destruct o|].
  exists s', e. split; [done|]. specialize (Hp' Hvo). split; [|done]. split; [done|rewrite Hb', Hp'; auto|]. rewrite Hb'. intros Hx.
  rewrite <-Hpo. eapply (manage_inv hp policy sync HNone fo ea s); eauto; [|done]. intros c ->. by destruct (Htr c).
Qed.

Lemma push_fin s ev l : finv s ev -> (forall m, m ∈ l -> plain_msg s m) -> finv (push s l) ev.
Proof. intros [Ha Hb Hr] Hl. split; try done. intros Hx. eapply push_inv; [by apply Hr|done|done]. Qed.

(** A child changes. *)
Lemma allinv_children s M ev : allinv False s ev -> allinv False (set_children s M) ev.
Proof. apply allinv_weak; [done|]. by repeat split. Qed.
Definition weakly (s s' : fstate) : Prop := (exists M, f_cm s' = set_children (f_cm s) M) /\ f_phase s' = f_phase s /\ f_bye s ⊆ f_bye s' /\ (0 ∈ f_bye s' -> 0 ∈ f_bye s).
Lemma weakly_refl s : weakly s s.
Proof. split; [exists (cm_children (f_cm s)); by destruct (f_cm s)|done]. Qed.
Lemma weakly_trans s s1 s2 : weakly s s1 -> weakly s1 s2 -> weakly s s2.
Proof.
  intros ((M1 & E1) & P1 & B1 & C1) ((M2 & E2) & P2 & B2 & C2). split; [exists M2; by rewrite E2, E1|]. split; [congruence|]. split; [set_solver|auto].
Qed.
Lemma weakly_same s s' : f_cm s' = f_cm s -> f_phase s' = f_phase s -> f_bye s' = f_bye s -> weakly s s'.
Proof. intros E1 E2 E3. split; [exists (cm_children (f_cm s)); rewrite E1; by destruct (f_cm s)|]. rewrite E3. done. Qed.
Lemma weakly_from s c l : weakly s (from s c l).
Proof. unfold from. destruct (decide _); by apply weakly_same. Qed.
Lemma weakly_own s c l : weakly s (own s c l).
Proof. unfold own. destruct (decide _); by apply weakly_same. Qed.
Lemma weakly_evolve s c ch : weakly s (evolve s c ch).
Proof. split; [by eexists|done]. Qed.
Lemma weakly_handles s c m abn esc : c <> 0 -> weakly s (child_handles s c m abn esc).
Proof.
  intros Hc. unfold child_handles. destruct (decide _); [apply weakly_refl|]. destruct (cm_children (f_cm s) !! c); [|apply weakly_refl]. destruct m; try apply weakly_refl.
  - apply weakly_evolve.
  - eapply weakly_trans; [|apply weakly_own]. destruct esc; [eapply weakly_trans; [|apply weakly_from]|]; apply weakly_evolve.
  - split; [exists (cm_children (f_cm s)); cbn; by destruct (f_cm s)|]. cbn. split; [done|]. set_solver.
Qed.
Lemma weakly_to s c m abn esc : c <> 0 -> weakly s (to_child s c m abn esc).
Proof. intros Hc. unfold to_child. destruct (decide _); [by apply weakly_same|by apply weakly_handles]. Qed.
Lemma weak_fin s s' ev : finv s ev -> weakly s s' -> (rinv HNone s ev -> 0 ∉ f_bye s -> rinv HNone s' ev) -> finv s' ev.
Proof.
  intros [Ha Hb Hr] ((M & E) & P & B & C) H. split.
  - rewrite E. by apply allinv_children.
  - intros Hx. rewrite P. auto.
  - intros Hx. assert (0 ∉ f_bye s) by set_solver. auto.
Qed.

(** ** Messages to and from the children *)
Definition to_msg (c : N) (m : fmsg) : Prop := m = MInitReq c \/ m = MShutReq c \/ m = MBye c.
Lemma to_known s ev c m h : rinv h s ev -> c <> 0 -> m ∈ f_q s -> dnm c m = true -> known s c.
Proof.
  intros R Hc Hm Hd. destruct (cm_children (f_cm s) !! c) eqn:Hch; [by eexists|]. exfalso.
  destruct (r_clean _ _ _ R c) as (B1 & _); [intros [? ?]; congruence|done|]. destruct (B1 m Hm). congruence.
Qed.
Lemma to_inv s ev c m q abn esc : rinv HNone s ev -> c <> 0 -> f_q s = m :: q -> to_msg c m -> rinv HNone (to_child (set_q s q) c m abn esc) ev.
Proof.
  intros R Hc Hq Hm. assert (Hd : dnm c m = true /\ upm c m = false) by (destruct Hm as [->|[->| ->]]; cbn; by rewrite N.eqb_refl).
  destruct Hd as [Hd Hu]. destruct (to_known s ev c m HNone R Hc) as [ch Hch]; [rewrite Hq; left|done|].
  assert (Hp : [m] = [] \/ [m] = [MInitReq c] \/ [m] = [MShutReq c] \/ [m] = [MBye c]) by (destruct Hm as [->|[->| ->]]; auto).
  assert (Hcm : exists M, f_cm s = set_children (f_cm s) M /\ M !! c = Some ch /\ forall d, d <> c -> M !! d = cm_children (f_cm s) !! d).
  { exists (cm_children (f_cm s)). by destruct (f_cm s). }
  unfold to_child. change (f_foreign (set_q s q)) with (f_foreign s). destruct (decide (c ∈ f_foreign s)) as [Hf|Hf].
  - set (s' := set_down _ _).
    assert (Hmv : moved c ch s s').
    { split; try done.
      - exists [m], q, []. rewrite app_nil_r. split_and!; try done. intros x Hx. by apply elem_of_nil in Hx.
      - intros d Hne. split; [done|]. unfold downl, s'. cbn. by rewrite lookup_insert_ne.
      - intros x Hx. by apply (r_upl _ _ _ R).
      - intros x. unfold downl at 1, s'. cbn. rewrite lookup_insert. cbn. intros Hx. apply elem_of_app in Hx as [Hx|Hx]; [by apply (r_downl _ _ _ R)|].
        apply elem_of_list_singleton in Hx as ->. done. }
    assert (HU : UP s' c = UP s c) by (unfold UP, s'; cbn; rewrite Hq; cbn; by rewrite Hu).
    assert (HD : DN s' c = DN s c). { unfold DN. rewrite Hq. unfold downl at 1, s'. cbn. rewrite lookup_insert. cbn. by rewrite <-(assoc_L (++)). }
    eapply child_inv; [done..|by eexists|done|].
    destruct (r_child _ _ _ R c ch Hc Hch) as [P1 P2 P3 P4 P5 P6 P7 P8].
    split; rewrite ?HU, ?HD; try done. intros Hx. destruct (P5 Hx) as (T1 & T2 & T3). split_and!; try done. intros Hh. cbn.
    specialize (T3 Hh). rewrite Hq in T3. apply elem_of_cons in T3 as [<-|?]; [by destruct Hm as [?|[?|?]]|done].
  - assert (Hlo : upl s c = [] /\ downl s c = []) by (by apply (r_local _ _ _ R)).
    eapply (handles_inv s ev c ch); try done.
    + split; try done.
      * exists [m], q, []. rewrite app_nil_r. split_and!; try done. intros x Hx. by apply elem_of_nil in Hx.
      * intros x Hx. by apply (r_upl _ _ _ R).
      * intros x Hx. by apply (r_downl _ _ _ R).
    + unfold UP. change (upl (set_q s q) c) with (upl s c). cbn. rewrite Hq. cbn. by rewrite Hu.
    + unfold DN. change (downl (set_q s q) c) with (downl s c). destruct Hlo as [_ ->]. cbn. rewrite Hq. cbn. by rewrite Hd.
Qed.

Lemma foreign_known s ev c : rinv HNone s ev -> upl s c <> [] \/ downl s c <> [] -> c <> 0 /\ c ∈ f_foreign s /\ known s c.
Proof.
  intros R Hx. assert (Hf : c ∈ f_foreign s). { destruct (decide (c ∈ f_foreign s)) as [|Hf]; [done|]. destruct (r_local _ _ _ R c Hf). tauto. }
  assert (Hc : c <> 0) by (intros ->; by apply (r_f0 _ _ _ R)). split_and!; [done..|].
  destruct (cm_children (f_cm s) !! c) eqn:Hch; [by eexists|]. destruct (r_clean _ _ _ R c) as (_ & _ & _ & ? & _); [intros [? ?]; congruence|done|done].
Qed.

Lemma fchild_inv s ev c m l abn esc : rinv HNone s ev -> downl s c = m :: l ->
  rinv HNone (child_handles (set_down s (<[c := l]> (f_down s))) c m abn esc) ev.
Proof.
  intros R Hd. destruct (foreign_known s ev c R) as (Hc & Hf & ch & Hch); [right; by rewrite Hd|].
  assert (Hm : to_msg c m) by (apply (r_downl _ _ _ R); rewrite Hd; left).
  assert (Hcm : exists M, f_cm s = set_children (f_cm s) M /\ M !! c = Some ch /\ forall d, d <> c -> M !! d = cm_children (f_cm s) !! d).
  { exists (cm_children (f_cm s)). by destruct (f_cm s). }
  eapply (handles_inv s ev c ch); try done.
  - split; try done.
    + exists [], (f_q s), []. cbn. rewrite app_nil_r. split_and!; [done|done|by left|]. intros x Hx. by apply elem_of_nil in Hx.
    + intros d Hne. split; [done|]. unfold downl. cbn. by rewrite lookup_insert_ne.
    + intros x Hx. by apply (r_upl _ _ _ R).
    + intros x. unfold downl at 1. cbn. rewrite lookup_insert. cbn. intros Hx. apply (r_downl _ _ _ R). rewrite Hd. by right.
  - unfold DN. rewrite Hd. unfold downl. cbn. rewrite lookup_insert. cbn. destruct Hm as [->|[->| ->]]; cbn; by rewrite N.eqb_refl.
Qed.

Lemma fup_inv s ev c m l : rinv HNone s ev -> upl s c = m :: l -> rinv HNone (push (set_up s (<[c := l]> (f_up s))) [m]) ev.
Proof.
  intros R Hu. destruct (foreign_known s ev c R) as (Hc & Hf & ch & Hch); [left; by rewrite Hu|].
  assert (Hm : upm c m = true \/ m = MTrigger 0) by (apply (r_upl _ _ _ R); rewrite Hu; left).
  assert (Hcm : exists M, f_cm s = set_children (f_cm s) M /\ M !! c = Some ch /\ forall d, d <> c -> M !! d = cm_children (f_cm s) !! d).
  { exists (cm_children (f_cm s)). by destruct (f_cm s). }
  set (s' := push _ _).
  assert (Hmv : moved c ch s s').
  { split; try done.
    - exists [], (f_q s), [m]. split_and!; [done|done|by left|]. intros x Hx. apply elem_of_list_singleton in Hx as ->. tauto.
    - intros d Hne. split; [|done]. unfold upl, s'. cbn. by rewrite lookup_insert_ne.
    - intros x. unfold upl at 1, s'. cbn. rewrite lookup_insert. cbn. intros Hx. apply (r_upl _ _ _ R). rewrite Hu. by right.
    - intros x Hx. by apply (r_downl _ _ _ R). }
  assert (HU : UP s' c = UP s c). { unfold UP. rewrite Hu. unfold upl at 1, s'. cbn. rewrite lookup_insert. cbn. by rewrite <-(assoc_L (++)). }
  assert (HD : DN s' c = DN s c). { unfold s'. rewrite DN_push; [done|]. intros x Hx. apply elem_of_list_singleton in Hx as ->. destruct Hm as [Hm| ->]; [by destruct m|done]. }
  eapply child_inv; [done..|by eexists|done|].
  destruct (r_child _ _ _ R c ch Hc Hch) as [P1 P2 P3 P4 P5 P6 P7 P8].
  split; rewrite ?HU, ?HD; try done. intros Hx. destruct (P5 Hx) as (T1 & T2 & T3). split_and!; try done. intros Hh. cbn. apply elem_of_app. left. auto.
Qed.

(** The timer of an init request. *)
Lemma init_timer_inv s ev c : rinv HNone s ev -> c ∈ f_init s -> Forall is_timeout (f_q s) -> rinv HNone (push (set_init s (f_init s ∖ {[c]})) [MInitTimeout c]) ev.
Proof.
  intros [Rcl Rloc Rkn Rcr Rch Rul Rdl Rf0 Rct Rto Rent Rself Rsh Rio Rcq Rsq Run Rrq Rb0 Rz Rh] Hc Hto.
  set (s' := push _ _). assert (Hno : forall d x, x ∈ [MInitTimeout c] -> upm d x = false /\ dnm d x = false) by (intros d x Hx; by apply elem_of_list_singleton in Hx as ->).
  assert (HU : forall d, UP s' d = UP s d). { intros d. unfold s'. rewrite UP_push; [done|]. intros x Hx. by apply Hno. }
  assert (HD : forall d, DN s' d = DN s d). { intros d. unfold s'. rewrite DN_push; [done|]. intros x Hx. by apply Hno. }
  assert (Hin : forall x, x ∈ f_q s' -> x ∈ f_q s \/ x = MInitTimeout c). { intros x Hx. cbn in Hx. apply elem_of_app in Hx as [?|Hx]; [by left|right]. by apply elem_of_list_singleton in Hx. }
  assert (Hin' : forall x, x ∈ f_q s -> x ∈ f_q s') by (intros x Hx; cbn; apply elem_of_app; by left).
  assert (Hi : forall d, d ∈ f_init s' -> d ∈ f_init s) by (intros d Hd; cbn in Hd; set_solver).
  rewrite Forall_forall in Hto.
  split; try done.
  - intros d Hd Hd0. destruct (Rcl d Hd Hd0) as (B1 & B2 & B3 & B4 & B5 & B6 & B7). split_and!; try done.
    + intros x Hx. apply Hin in Hx as [?| ->]; [auto|done].
    + intros Hx. by apply Hi in Hx.
  - intros d ch Hd Hch. destruct (Rch d ch Hd Hch) as [P1 P2 P3 P4 P5 P6 P7 P8]. split; rewrite ?HU, ?HD; try done.
    + intros Hx. destruct (P5 Hx) as (T1 & T2 & T3). auto.
    + intros Hx. apply P8, Hi, Hx.
  - intros d Hd a b Hab. assert (Hx : MTrigger d ∈ f_q s') by (rewrite Hab; apply elem_of_app; right; left). apply Hin in Hx as [Hx|?]; [|done]. by apply Hto in Hx.
  - exists (f_q s'), []. rewrite app_nil_r. split_and!; [done| |constructor]. apply Forall_forall. intros x Hx. apply Hin in Hx as [?| ->]; [auto|done].
  - intros d [Hd|Hd]; [apply Rent; left; by apply Hi|]. apply Hin in Hd as [?|Hd]; [apply Rent; by right|]. inversion Hd; subst. apply Rent. by left.
  - intros Hn Hh. destruct (Rself Hn Hh) as (a & b & Hab & Ha). exists a, (b ++ [MInitTimeout c]). cbn. by rewrite Hab, <-(assoc_L (++)).
  - intros d Hd. by apply Rio, Hi.
  - change (creates (f_q s ++ [MInitTimeout c]) = cm_createq (f_cm s)). by rewrite creates_app, app_nil_r.
  - change (spawns (f_q s ++ [MInitTimeout c]) = cm_spawnq (f_cm s)). by rewrite spawns_app, app_nil_r.
  - intros Hx. apply Rb0. apply Hin in Hx as [?|?]; done.
  - destruct Rz as (Z1 & Z2 & Z3). split_and!; intros Hx; apply Hin in Hx as [?|?]; done.
Qed.

(** ** The first message of the queue *)
Lemma busy_inv fo ea s ev h o : allinv False (f_cm s) ev -> rinv h s ev -> 0 ∉ f_bye s -> closes h o -> (o = OVoteShutdown -> f_phase s = PWorking) ->
  (forall c, o = OTrigger c -> c ∈ f_foreign s -> MCreate c ∉ f_q s) -> can (f_cm s) o ->
  exists s' e, manage fo ea s o = Ok (s', e) /\ allinv False (f_cm s') (ev ++ e) /\ rinv (post o) s' (ev ++ e) /\ 0 ∉ f_bye s' /\
    (o <> OVoteShutdown -> f_phase s' = f_phase s) /\ step (f_cm s) o = Ok (f_cm s', e).
Proof.
  intros Ha R Hb Hcl Hvo Htr Hcan. destruct (manage_ok fo ea s ev o Ha Hcan) as (s' & e & H & Ha' & Hb' & Hp' & Hst); [by destruct o|].
  exists s', e. rewrite Hb'. split_and!; try done. by eapply (manage_inv hp policy sync h fo ea s).
Qed.
Lemma busy_fin fo ea s ev h o : allinv False (f_cm s) ev -> rinv h s ev -> 0 ∉ f_bye s -> closes h o -> o <> OVoteShutdown ->
  (forall c, o = OTrigger c -> c ∈ f_foreign s -> MCreate c ∉ f_q s) -> can (f_cm s) o -> post o = HNone ->
  exists s' e, manage fo ea s o = Ok (s', e) /\ finv s' (ev ++ e).
Proof.
  intros Ha R Hb Hcl Hvo Htr Hcan Hpo. destruct (busy_inv fo ea s ev h o) as (s' & e & H & Ha' & R' & Hb' & _); try done.
  exists s', e. split; [done|]. split; [done|done|]. intros _. by rewrite <-Hpo.
Qed.

Lemma rinv_initout h s ev x : rinv h s ev -> rinv h (set_cm s (set_initout (f_cm s) (cm_initout (f_cm s) ∪ x))) ev.
Proof.
  intros [Rcl Rloc Rkn Rcr Rch Rul Rdl Rf0 Rct Rto Rent Rself Rsh Rio Rcq Rsq Run Rrq Rb0 Rz Rh].
  split; try done.
  - intros c ch Hc Hch. destruct (Rch c ch Hc Hch) as [P1 P2 P3 P4 P5 P6 P7 P8]. by split.
  - intros c Hc. cbn. apply elem_of_union_l. by apply Rio.
Qed.
Lemma rinv_phase s ev : rinv HNone s ev -> rinv HNone (set_phase s PLeft) ev.
Proof.
  intros [Rcl Rloc Rkn Rcr Rch Rul Rdl Rf0 Rct Rto Rent Rself Rsh Rio Rcq Rsq Run Rrq Rb0 Rz Rh].
  split; try done. intros c ch Hc Hch. destruct (Rch c ch Hc Hch) as [P1 P2 P3 P4 P5 P6 P7 P8]. by split.
Qed.

Lemma deliver_fin s ev m q ok foreign early subs ask abn esc : finv s ev -> f_q s = m :: q ->
  exists s' e, deliver hp policy sync (set_q s q) m ok foreign early subs ask abn esc = Ok (s', e) /\ finv s' (ev ++ e).
Proof.
  intros Hfin Hq. assert (Hnil : forall s', finv s' ev -> finv s' (ev ++ [])) by (intros s'; by rewrite app_nil_r).
  destruct (decide (0 ∈ f_bye s)) as [Hb|Hb].
  { (* the supervisor has left *)
    assert (Hw : forall s', weakly (set_q s q) s' -> finv s' ev).
    { intros s' Hw. eapply weak_fin; [|exact Hw|].
      - destruct Hfin as [Ha Hp Hr]. split; [done|done|]. intros Hx. by destruct Hx.
      - intros _ Hx. by destruct Hx. }
    assert (Hsame : finv (set_q s q) ev) by (apply Hw, weakly_refl).
    assert (Hb2 : 0 ∈ f_bye (set_q s q)) by done.
    destruct m; unfold deliver; try (rewrite (decide_True _ _ Hb2); eauto).
    - destruct (N.eqb_spec c 0) as [->|Hc]; [eauto|]. eexists _, _. split; [done|]. by apply Hnil, Hw, weakly_to.
    - eexists _, _. split; [done|]. apply Hnil, Hw. destruct (N.eqb_spec c 0) as [->|Hc]; [|by apply weakly_to].
      unfold to_child. destruct (decide _); [by apply weakly_same|]. unfold child_handles. rewrite decide_True by done. apply weakly_refl.
    - destruct (N.eqb_spec c 0) as [->|Hc].
      + eexists _, _. split; [done|]. apply Hnil, Hw. split; [exists (cm_children (f_cm s)); cbn; by destruct (f_cm s)|]. cbn. split; [done|]. set_solver.
      + eexists _, _. split; [done|]. by apply Hnil, Hw, weakly_to. }
  pose proof (fi_rinv _ _ Hfin Hb) as R. pose proof (fi_all _ _ Hfin) as Ha.
  assert (Hb2 : 0 ∉ f_bye (set_q s q)) by done.
  assert (Hz : m <> MShutReq 0 /\ m <> MShutResp 0 /\ m <> MCreate 0).
  { destruct (r_zero _ _ _ R) as (Z1 & Z2 & Z3). rewrite Hq in Z1, Z2, Z3. split_and!; intros ->; [apply Z3|apply Z1|apply Z2]; left. }
  assert (Hmq : m ∈ f_q s) by (rewrite Hq; left).
  assert (Hws : weakly s (set_q s q)) by (by apply weakly_same).
  assert (Hto : forall c, c <> 0 -> to_msg c m -> finv (to_child (set_q s q) c m abn esc) (ev ++ [])).
  { intros c Hc Hm. apply Hnil. eapply weak_fin; [exact Hfin| |].
    - eapply weakly_trans; [done|by apply weakly_to].
    - intros _ _. by apply to_inv. }
  assert (HUhead : forall c, upm c m = true -> UP s c <> []).
  { intros c Hc. rewrite (UP_pop s m q c Hq), Hc. done. }
  assert (Hupk : forall c, c <> 0 -> upm c m = true -> known s c).
  { intros c Hc Hm. destruct (cm_children (f_cm s) !! c) eqn:Hch; [by eexists|]. exfalso.
    destruct (r_clean _ _ _ R c) as (B1 & _); [intros [? ?]; congruence|done|]. destruct (B1 m Hmq). congruence. }
  assert (Huplive : forall c, c <> 0 -> upm c m = true -> has_actor (f_cm s) c).
  { intros c Hc Hm. eapply live_actor; eauto. intros Hr. destruct (Hupk c Hc Hm) as [ch Hch].
    destruct (p_rem _ _ _ _ _ (r_child _ _ _ R c ch Hc Hch) Hr) as (_ & Hx & _). by apply (HUhead c Hm). }
  destruct m; unfold deliver; try rewrite (decide_False _ _ Hb2).
  - (* MCreate *)
    pose proof (pop_inv s ev _ q Ha R Hq I) as R1. eapply (busy_fin false false (set_q s q) ev _ (OOnCreate c)); try done.
    cbn. intros _. assert (Hc : c <> 0) by (intros ->; by destruct Hz as (_ & _ & ?)).
    assert (Hk : known s c) by (eapply to_known; eauto; apply N.eqb_refl). eapply live_actor; eauto. intros Hr. destruct Hk as [ch Hch].
    pose proof (r_child _ _ _ R c ch Hc Hch) as P. destruct (p_rem _ _ _ _ _ P Hr) as (Hs & _ & _). pose proof (p_dn _ _ _ _ _ P) as Hd.
    rewrite decide_False, app_nil_l in Hd by done.
    assert (Hin : MCreate c ∈ DN s c). { apply in_filter. split; [apply elem_of_app; by right|apply N.eqb_refl]. }
    rewrite Hs in Hd. destruct Hd as [(H1 & _)|[(H1 & _)|[(_ & _ & _ & H4)|(_ & _ & _ & H4)]]]; [by destruct H1|by destruct H1|..].
    + destruct H4 as [H4|[[_ H4]|(_ & _ & H4)]]; rewrite H4 in Hin; repeat (apply elem_of_cons in Hin as [Hin|Hin]; [done|]); by apply elem_of_nil in Hin.
    + destruct H4 as [H4|(_ & _ & H4)]; rewrite H4 in Hin; repeat (apply elem_of_cons in Hin as [Hin|Hin]; [done|]); by apply elem_of_nil in Hin.
  - (* MSpawn *)
    pose proof (pop_inv s ev _ q Ha R Hq I) as R1. by eapply (busy_fin foreign early (set_q s q) ev _ (OOnSpawn a ok)).
  - (* MInitReq *)
    destruct (N.eqb_spec c 0) as [->|Hc].
    + pose proof (pop_inv s ev _ q Ha R Hq eq_refl) as R1. by eapply (busy_fin false false (set_q s q) ev _ OInitRequest).
    + eexists _, _. split; [done|]. apply Hto; [done|by left].
  - (* MInitResp *)
    pose proof (pop_inv s ev _ q Ha R Hq I) as R1. change (f_init (set_q s q)) with (f_init s). destruct (decide (c ∈ f_init s)) as [Hc|Hc].
    + eapply (busy_fin false false _ ev _ (OOnInit c failed)); try done. destruct failed; [|done]. cbn. apply (r_ent _ _ _ R c). by left.
    + eexists _, _. split; [done|]. apply Hnil. split; try done.
      assert (Hx : popped s (MInitResp c failed) q = set_q s q).
      { cbn. assert (f_init s ∖ {[c]} = f_init s) as -> by set_solver. done. }
      rewrite Hx in R1. done.
  - (* MInitTimeout *)
    pose proof (pop_inv s ev _ q Ha R Hq I) as R1. eapply (busy_fin false false _ ev HNone (OOnInit c true)); try done.
    + cbn. by apply allinv_weak with (f_cm s).
    + by apply (rinv_initout _ (set_q s q)).
    + cbn. apply (r_ent _ _ _ R c). by right.
  - (* MTrigger *)
    pose proof (pop_inv s ev _ q Ha R Hq I) as R1. eapply (busy_fin false false _ ev HNone (OTrigger a)); try done.
    + intros c Hc Hf. inversion Hc; subst. apply (r_ct _ _ _ R c Hf [] q). done.
    + cbn. destruct (N.eqb_spec a 0) as [->|Hne]; [|apply Huplive; [done|apply N.eqb_refl]].
      destruct (cm_map (f_cm s) !! 0) as [i|] eqn:Hi.
      * exists i. split; [done|]. destruct (v_self _ (ai_c _ _ _ Ha) _ Hi) as [-> _]. by eexists.
      * exfalso. destruct (r_self _ _ _ R Hi) as (x & b & Hab & Hx); [done|]. rewrite Hq in Hab. destruct x as [|y x]; [done|]. inversion Hab; subst. apply Hx. left.
  - (* MShutReq *)
    eexists _, _. split; [done|]. apply Hto; [|by right; left]. intros ->. by destruct Hz.
  - (* MShutResp *)
    pose proof (pop_inv s ev _ q Ha R Hq I) as R1. cbn [hole_of] in R1. destruct (r_hole _ _ _ R1) as (T1 & T2 & T3 & T4 & T5 & T6 & _).
    change (f_shut (set_q s q)) with (f_shut s). rewrite decide_True by (by apply (r_shut _ _ _ R)). unfold confirm.
    destruct (busy_inv false false (popped s (MShutResp c) q) ev _ (OConfirm c subs ask) Ha R1) as (s' & e & H & Ha' & R' & Hb' & _); try done.
    { cbn. intros _. apply Huplive; [done|apply N.eqb_refl]. }
    unfold FamilyModel.manage0. cbn [popped] in H. rewrite H. cbn [rbind]. eexists _, _. split; [done|]. split.
    + by destruct subs.
    + by destruct subs.
    + intros _. destruct subs; cbn [post] in R'; [|done]. eapply push_inv; [exact R'|..].
      * intros x Hx. by apply elem_of_list_singleton in Hx as ->.
      * left.
  - (* MShutTimeout *)
    exfalso. destruct (r_to _ _ _ R) as (t & r & Tq & T1 & T2). rewrite Tq in Hmq. rewrite Forall_forall in T1, T2. apply elem_of_app in Hmq as [Hx|Hx]; [by apply T1 in Hx|by apply T2 in Hx].
  - (* MUnsub *)
    pose proof (pop_inv s ev _ q Ha R Hq I) as R1. eapply (busy_fin false false _ ev _ (OUnsubLast c ask)); try done.
    cbn. intros Hu. destruct (r_unsub _ _ _ R c Hu) as [[ch Hch] Hc]. eapply live_actor; eauto; [by eexists|]. intros Hr.
    by destruct (p_rem _ _ _ _ _ (r_child _ _ _ R c ch Hc Hch) Hr) as (_ & _ & ?).
  - (* MBye *)
    destruct (N.eqb_spec c 0) as [->|Hc].
    + eexists _, _. split; [done|]. apply Hnil. split; [done| |].
      * intros _. cbn. by apply (r_bye0 _ _ _ R).
      * intros Hx. exfalso. apply Hx. cbn. set_solver.
    + eexists _, _. split; [done|]. apply Hto; [done|by right; right].
Qed.

Lemma deactivate_quiet s m ask s' e : manage0 s (ODeactivate m ask) = Ok (s', e) ->
  f_q s' = f_q s /\ (m = false -> cm_map (f_cm s') = cm_map (f_cm s)).
Proof.
  unfold FamilyModel.manage0, FamilyModel.manage. intros H.
  assert (Hid : forall cm, step (f_cm s) (ODeactivate m ask) = Ok (cm, e) ->
    (m = false -> cm_map cm = cm_map (f_cm s)) /\ forall x, x ∈ e -> forall t, react hp false false t x = t).
  { intros cm Hc. cbn -[deactivate] in Hc. case_bool_decide as Hst; [|inversion Hc; subst; split; [done|by intros x Hx; apply elem_of_nil in Hx]].
    unfold deactivate in Hc. destruct m; cbn [andb] in Hc; [|inversion Hc; subst; split; [done|by intros x Hx; apply elem_of_nil in Hx]].
    destruct (_ =? _)%nat; [|inversion Hc; subst; split; [done|by intros x Hx; apply elem_of_nil in Hx]].
    split; [done|]. unfold remove_child in Hc. destruct (cm_map (f_cm s) !! 0) as [i|]; [|done].
    rewrite bool_decide_false in Hc by congruence. cbn [andb] in Hc. destruct (ci_actor i) as [c|]; [|done].
    assert (Hr : rank (cm_state (cancel_init (f_cm s) c)) = 5).
    { assert (cm_state (cancel_init (f_cm s) c) = cm_state (f_cm s)) as -> by (unfold cancel_init; by repeat case_match). by rewrite Hst. }
    rewrite Hr in Hc. cbn [N.leb andb N.compare Pos.compare Pos.compare_cont] in Hc. inversion Hc; subst. intros x Hx t.
    apply elem_of_cons in Hx as [->|Hx]; [done|]. apply elem_of_app in Hx as [Hx|Hx].
    - case_match; [|by apply elem_of_nil in Hx]. by apply elem_of_list_singleton in Hx as ->.
    - unfold init_continue in Hx. case_match; [|by apply elem_of_nil in Hx]. by apply elem_of_list_singleton in Hx as ->. }
  destruct (step (f_cm s) (ODeactivate m ask)) as [[cm e']| |] eqn:Hc; try done. cbn in H. injection H as <- <-.
  destruct (Hid cm eq_refl) as [H1 H2].
  assert (Hf : forall l t, (forall x, x ∈ l -> forall t, react hp false false t x = t) -> foldl (react hp false false) t l = t).
  { induction l as [|x l IH]; intros t Hl; [done|]. cbn. rewrite Hl by left. apply IH. intros y Hy. apply Hl. by right. }
  rewrite Hf by done. by split.
Qed.

Lemma step_fin s ev o : finv s ev -> orderly s o -> exists s' e, fstep s o = Ok (s', e) /\ finv s' (ev ++ e).
Proof.
  intros Hfin Ho. assert (Hnil : forall s', finv s' ev -> finv s' (ev ++ [])) by (intros s'; by rewrite app_nil_r).
  pose proof (fi_all _ _ Hfin) as Ha.
  assert (Hfree : forall fo ea o, closes HNone o -> (forall c, o <> OTrigger c) -> o <> OVoteShutdown -> can (f_cm s) o -> post o = HNone ->
     exists s' e, manage fo ea s o = Ok (s', e) /\ finv s' (ev ++ e)).
  { intros fo ea o' H1 H2 H3 H4 H5. destruct (free_inv fo ea s ev o' Hfin H1 H2 H3 H4 H5) as (s' & e & H & H' & _). eauto. }
  destruct o; unfold FamilyModel.fstep.
  - by apply Hfree.
  - by apply Hfree.
  - destruct (N.eqb_spec a 0) as [->|Hne].
    + eexists _, _. split; [done|]. apply Hnil. destruct (_ && _); [|done]. apply push_fin; [done|]. intros m Hm. by apply elem_of_list_singleton in Hm as ->.
    + destruct (cm_children (f_cm s) !! a) as [ch|] eqn:Hch; [|eauto]. eexists _, _. split; [done|]. apply Hnil.
      destruct (N.ltb_spec (rank (ch_state ch)) 5); [|done]. eapply weak_fin; [done|apply weakly_from|]. intros R _. by eapply trigger_inv.
  - destruct (f_q s) as [|m q] eqn:Hq; [eauto|]. by apply deliver_fin.
  - destruct (downl s c) as [|m l] eqn:Hd; [eauto|]. eexists _, _. split; [done|]. apply Hnil. destruct (decide (c = 0)) as [->|Hc].
    + destruct (decide (0 ∈ f_bye s)) as [Hb|Hb].
      * unfold child_handles. rewrite decide_True by done. eapply weak_fin; [done|by apply weakly_same|]. intros _ Hx. done.
      * exfalso. destruct (foreign_known s ev 0 (fi_rinv _ _ Hfin Hb)) as [? _]; [right; by rewrite Hd|done].
    + eapply weak_fin; [done|eapply weakly_trans; [|by apply weakly_handles]; by apply weakly_same|]. intros R _. by apply fchild_inv.
  - destruct (upl s c) as [|m l] eqn:Hu; [eauto|]. eexists _, _. split; [done|]. apply Hnil.
    eapply weak_fin; [done|by apply weakly_same|]. intros R _. by apply fup_inv.
  - unfold child_ready. destruct (cm_children (f_cm s) !! c) as [ch|] eqn:Hch; [|eauto]. case_bool_decide as Hs; [|eauto]. destruct (ch_initreq ch); [|eauto].
    eexists _, _. split; [done|]. apply Hnil. destruct Hs as [Hs Hc]. eapply weak_fin; [done|eapply weakly_trans; [|apply weakly_from]; apply weakly_evolve|].
    intros R _. by apply answer_inv.
  - unfold child_ready. destruct (cm_children (f_cm s) !! c) as [ch|] eqn:Hch; [|eauto]. case_bool_decide as Hs; [|eauto].
    eexists _, _. split; [done|]. apply Hnil. destruct Hs as [Hs Hc]. eapply weak_fin; [done|apply weakly_evolve|].
    intros R _. by apply start_inv.
  - unfold child_ready. destruct (cm_children (f_cm s) !! c) as [ch|] eqn:Hch; [|eauto]. case_bool_decide as Hs; [|eauto]. destruct (decide _); [|eauto].
    eexists _, _. split; [done|]. apply Hnil. destruct Hs as [Hs Hc]. eapply weak_fin; [done|eapply weakly_trans; [|apply weakly_from]; apply weakly_evolve|].
    intros R _. by apply done_inv.
  - eexists _, _. split; [done|]. apply Hnil. destruct (decide (c ∈ f_init s)); [|done]. eapply weak_fin; [done|by apply weakly_same|].
    intros R _. by apply init_timer_inv.
  - done.
  - by apply Hfree.
  - by apply Hfree.
  - by apply Hfree.
  - destruct (_ && _); [|eauto]. destruct (free_inv false false s ev (OState AInitialized) Hfin) as (s' & e & H & Hf' & _); try done.
    unfold FamilyModel.manage0. rewrite H. cbn [rbind]. eexists _, _. split; [done|]. destruct hp; [done|]. apply push_fin; [done|].
    intros m Hm. by apply elem_of_list_singleton in Hm as ->.
  - by apply Hfree.
  - destruct hp; [|eauto]. by apply Hfree.
  - destruct hp; [|eauto]. by apply Hfree.
  - case_bool_decide as Hp; [|eauto]. assert (Hb : 0 ∉ f_bye s). { intros Hb. apply (fi_bye _ _ Hfin) in Hb. congruence. }
    pose proof (fi_rinv _ _ Hfin Hb) as R. destruct (busy_inv false false s ev HNone OVoteShutdown) as (s' & e & H & Ha' & R' & Hb' & _); try done.
    { cbn. eapply entry0; eauto. congruence. }
    exists s', e. by split.
  - case_bool_decide as Hp; [|eauto]. assert (Hb : 0 ∉ f_bye s). { intros Hb. apply (fi_bye _ _ Hfin) in Hb. congruence. }
    pose proof (fi_rinv _ _ Hfin Hb) as R. assert (H0 : has_actor (f_cm s) 0) by (eapply entry0; eauto; congruence).
    destruct (busy_inv false false (set_phase s PLeft) ev HNone (ODeactivate mapping_empty ask)) as (s' & e & H & Ha' & R' & Hb' & Hp' & Hst); try done.
    { by apply rinv_phase. }
    destruct (deactivate_quiet _ _ _ _ _ H) as [Hq1 Hm1].
    unfold FamilyModel.manage0. rewrite H. cbn [rbind]. eexists _, _. split; [done|]. specialize (Hp' ltac:(done)). cbn in Hp'. cbn [post] in R'.
    destruct mapping_empty.
    + split; [done|done|]. intros _. eapply push_inv; [exact R'|..].
      * intros m Hm. apply elem_of_list_singleton in Hm as ->. done.
      * intros _. split; [done|]. rewrite Hq1. exact Ho.
    + split; [done|done|]. intros _. assert (Hx : rinv HNone (push s' []) (ev ++ e)).
      { eapply push_inv; [exact R'|by intros x Hx; apply elem_of_nil in Hx|]. intros Hn. rewrite Hm1 in Hn by done. destruct H0 as (i & Hi & _). cbn in Hn. congruence. }
      unfold push in Hx. rewrite app_nil_r in Hx. by destruct s'.
  - eexists _, _. split; [done|]. apply Hnil. case_bool_decide; [|done]. apply push_fin; [done|]. intros m Hm. by apply elem_of_list_singleton in Hm as ->.
  - by apply Hfree.
Qed.

Lemma finv_init : finv (finit hp) [].
Proof.
  split; [apply allinv_init|done|]. intros _. 
  assert (Hkn : forall c, known (finit hp) c -> c = 0).
  { intros c [ch Hc]. cbn in Hc. by apply lookup_singleton_Some in Hc as [<- _]. }
  assert (Hq : forall m, m ∈ f_q (finit hp) -> m = MInitReq 0). { intros m Hm. unfold finit in Hm. cbn in Hm. destruct hp; [by apply elem_of_nil in Hm|by apply elem_of_list_singleton in Hm]. }
  assert (Hi : forall m, m ∈ f_init (finit hp) -> m = 0 /\ hp = false). { intros m Hm. cbn in Hm. destruct hp; [by apply elem_of_empty in Hm|by apply elem_of_singleton in Hm]. }
  split.
  - intros c Hk Hc. split_and!; try done.
    + intros m Hm. apply Hq in Hm as ->. split; [done|]. change ((0 =? c) = false). apply N.eqb_neq. by apply not_eq_sym.
    + intros Hx. by apply Hi in Hx as [? _].
  - done.
  - intros c Hk. apply Hkn in Hk as ->. split; [cbn; lia|done].
  - intros c Hc. by apply elem_of_nil in Hc.
  - intros c ch Hc Hch. destruct Hc. apply Hkn. by eexists.
  - intros c m Hm. by apply elem_of_nil in Hm.
  - intros c m Hm. by apply elem_of_nil in Hm.
  - done.
  - intros c Hc. by apply elem_of_empty in Hc.
  - exists [], (f_q (finit hp)). split_and!; [done|constructor|]. apply Forall_forall. intros m Hm. by apply Hq in Hm as ->.
  - intros c [Hc|Hc]; [|by apply Hq in Hc]. apply Hi in Hc as [-> _]. split; [cbn; lia|]. intros i Hi0. cbn in Hi0. rewrite lookup_singleton in Hi0.
    injection Hi0 as <-. by eexists.
  - done.
  - intros c Hc. by apply elem_of_empty in Hc.
  - done.
  - cbn. by destruct hp.
  - cbn. by destruct hp.
  - intros c Hc. by apply elem_of_empty in Hc.
  - intros c Hc. by apply elem_of_nil in Hc.
  - intros Hm. by apply Hq in Hm.
  - split_and!; intros Hm; by apply Hq in Hm.
  - done.
Qed.

(** ** The theorems *)
Lemma fam_safe ops : guarded fstep orderly (finit hp) ops -> exists s ev, run fstep (finit hp) ops = Ok (s, ev) /\ finv s ev.
Proof. intros Hg. apply (run_safe_ev fstep orderly finv step_fin ops (finit hp) [] finv_init Hg). Qed.
Lemma fam_reach ops s ev : guarded fstep orderly (finit hp) ops -> run fstep (finit hp) ops = Ok (s, ev) -> finv s ev.
Proof. intros Hg H. destruct (fam_safe ops Hg) as (s1 & e1 & H1 & Hf). rewrite H in H1. by inversion H1; subst. Qed.

Lemma fam_agrees ops s ev : guarded fstep orderly (finit hp) ops -> run fstep (finit hp) ops = Ok (s, ev) -> 0 ∉ f_bye s ->
  cm_createq (f_cm s) = creates (f_q s) /\ cm_spawnq (f_cm s) = spawns (f_q s).
Proof.
  intros Hg H Hb. pose proof (fi_rinv _ _ (fam_reach ops s ev Hg H) Hb) as R. split; [symmetry; apply (r_createq _ _ _ R)|symmetry; apply (r_spawnq _ _ _ R)].
Qed.

Lemma filter_nil (p : fmsg -> bool) l : l = [] -> List.filter p l = [].
Proof. by intros ->. Qed.

Lemma settled_child ops s ev c : guarded fstep orderly (finit hp) ops -> run fstep (finit hp) ops = Ok (s, ev) -> settled s -> ECreated c ∈ ev ->
  exists ch, cm_children (f_cm s) !! c = Some ch /\ c <> 0 /\ pc HNone s ev c ch /\ UP s c = [] /\ DN s c = [].
Proof.
  intros Hg H (Hq & Hl & Hb) Hc. pose proof (fam_reach ops s ev Hg H) as Hf. pose proof (fi_rinv _ _ Hf Hb) as R.
  destruct (r_created _ _ _ R c Hc) as [ch Hch]. destruct (h_next _ _ (ai_h _ _ _ (fi_all _ _ Hf)) c Hc) as [Hc0 _].
  exists ch. split_and!; [done|done|by apply R| |].
  - unfold UP. destruct (Hl c) as [-> _]. by rewrite Hq.
  - unfold DN. destruct (Hl c) as [_ ->]. by rewrite Hq.
Qed.

Lemma fam_asked ops s ev c : guarded fstep orderly (finit hp) ops -> run fstep (finit hp) ops = Ok (s, ev) -> settled s -> ECreated c ∈ ev ->
  EShutReq c ∈ ev <-> shutting s c.
Proof.
  intros Hg H Hs Hc. destruct (settled_child ops s ev c Hg H Hs Hc) as (ch & Hch & Hc0 & P & HU & HD).
  pose proof (p_dn _ _ _ _ _ P) as Hd. rewrite HD, decide_False in Hd by done. unfold shutting, state_of. rewrite Hch. cbn.
  assert (Hr : 5 <= rank (ch_state ch) <-> EShutReq c ∈ ev).
  { destruct Hd as [(H1 & H2 & _)|[(_ & _ & _ & H4)|[(_ & _ & _ & H4)|(H1 & H2 & _)]]]; [by split|..|by split]; exfalso.
    - destruct H4 as [?|[?|[_ [?|?]]]]; done.
    - destruct H4 as [?|[[_ ?]|(_ & _ & ?)]]; done. }
  rewrite <-Hr. split.
  - intros Hk. exists (ch_state ch). split; [done|]. destruct (ch_state ch); cbn in Hk; auto; lia.
  - intros (st & Hst & Hk). injection Hst as <-. destruct Hk as [->| ->]; cbn; lia.
Qed.
Lemma fam_removed ops s ev c : guarded fstep orderly (finit hp) ops -> run fstep (finit hp) ops = Ok (s, ev) -> settled s -> ECreated c ∈ ev ->
  removed c ev <-> state_of s c = Some AShutDown.
Proof.
  intros Hg H Hs Hc. destruct (settled_child ops s ev c Hg H Hs Hc) as (ch & Hch & Hc0 & P & HU & HD).
  unfold state_of. rewrite Hch. cbn. split.
  - intros Hr. by destruct (p_rem _ _ _ _ _ P Hr) as [-> _].
  - intros Hst. injection Hst as Hst. destruct (p_gone _ _ _ _ _ P Hst HU) as [?|Hu]; [done|done|]. exfalso.
    destruct (p_un _ _ _ _ _ P Hu) as (_ & _ & Hx). destruct Hs as (Hq & _). rewrite Hq in Hx. by eapply elem_of_nil, Hx.
Qed.
Lemma fam_entry ops s ev c : guarded fstep orderly (finit hp) ops -> run fstep (finit hp) ops = Ok (s, ev) -> ECreated c ∈ ev ->
  removed c ev <-> ~ exists i, cm_map (f_cm s) !! c = Some i /\ ci_actor i = Some c.
Proof.
  intros Hg H Hc. pose proof (ai_h _ _ _ (fi_all _ _ (fam_reach ops s ev Hg H))) as Hh. split.
  - intros Hr (i & Hi & Ha). destruct (h_removed _ _ Hh c Hr) as [_ Hx]. by rewrite (Hx i Hi) in Ha.
  - intros Hx. by destruct (h_live _ _ Hh c Hc).
Qed.
Lemma fam_waits ops s ev c : guarded fstep orderly (finit hp) ops -> run fstep (finit hp) ops = Ok (s, ev) -> 0 ∉ f_bye s -> ECreated c ∈ ev ->
  EShutReq c ∈ ev -> ~ removed c ev -> c ∈ cm_unsub (f_cm s) \/ c ∈ f_shut s.
Proof.
  intros Hg H Hb Hc Ha Hr. pose proof (fam_reach ops s ev Hg H) as Hf. pose proof (fi_rinv _ _ Hf Hb) as R.
  destruct (r_created _ _ _ R c Hc) as [ch Hch]. destruct (h_next _ _ (ai_h _ _ _ (fi_all _ _ Hf)) c Hc) as [Hc0 _].
  pose proof (r_child _ _ _ R c ch Hc0 Hch) as P. destruct (p_ask _ _ _ _ _ P Ha) as [Hx|[Hs HU]].
  - right. by apply (r_shut _ _ _ R).
  - left. by destruct (p_gone _ _ _ _ _ P Hs HU).
Qed.

Lemma fam_order ops s ev s' e c : guarded fstep orderly (finit hp) ops -> run fstep (finit hp) ops = Ok (s, ev) ->
  fstep s FVote = Ok (s', e) -> EVoteShutdown true ∈ e -> ECreated c ∈ ev -> state_of s' c = Some AShutDown /\ removed c ev.
Proof.
  intros Hg H Hv Ht Hc. pose proof (fam_reach ops s ev Hg H) as Hf. destruct (step_fin s ev FVote Hf I) as (s2 & e2 & H2 & Hf2).
  rewrite Hv in H2. inversion H2; subst s2 e2. clear H2. pose proof (fi_all _ _ Hf) as Ha. unfold FamilyModel.fstep in Hv.
  case_bool_decide as Hp; [|inversion Hv; subst; by apply elem_of_nil in Ht].
  assert (Hb : 0 ∉ f_bye s). { intros Hb. apply (fi_bye _ _ Hf) in Hb. congruence. }
  pose proof (fi_rinv _ _ Hf Hb) as R. destruct (busy_inv false false s ev HNone OVoteShutdown) as (s2 & e2 & H2 & Ha' & R' & Hb' & _ & Hst); try done.
  { cbn. eapply entry0; eauto. congruence. }
  unfold FamilyModel.manage0 in Hv. rewrite Hv in H2. inversion H2; subst s2 e2. clear H2.
  assert (Hr : removed c (ev ++ e)).
  { destruct (h_live _ _ (ai_h _ _ _ Ha') c) as [(j & Hj & Hja)|?]; [apply elem_of_app; by left| |done]. exfalso.
    destruct (h_next _ _ (ai_h _ _ _ Ha) c Hc) as [Hc0 _].
    cbn -[handle_shutdown] in Hst. case_bool_decide; [|inversion Hst; subst; by apply elem_of_nil in Ht]. unfold handle_shutdown in Hst.
    destruct (cm_map (f_cm s) !! 0) as [i|] eqn:Hi; [|done].
    pose proof (ask_all_map (put_info (f_cm s) 0 (i_shut i SConfirmed))) as Hmm.
    pose proof (ask_events_in (put_info (f_cm s) 0 (i_shut i SConfirmed))) as Hev.
    destruct (request_shutdown_all _) as [s1 e1] eqn:Hq. cbn in Hmm, Hev. injection Hst as Hs1 He1. subst s1 e.
    apply elem_of_app in Ht as [Hx|Ht]; [by apply Hev in Hx as [(? & ? & ? & ? & _)|?]|].
    apply elem_of_list_singleton in Ht. injection Ht as Ht. symmetry in Ht. apply Nat.eqb_eq in Ht.
    assert (2 <= active_actors (f_cm s'))%nat; [|lia]. destruct (v_self _ (ai_c _ _ _ Ha) _ Hi) as [Hs0 _].
    eapply (two_alive (f_cm s') 0 c (ask_child (i_shut i SConfirmed)) j); try done; unfold is_alive.
    - rewrite Hmm, lookup_fmap. cbn. by rewrite lookup_insert.
    - rewrite (proj1 (proj2 (proj2 (ask_child_fields _)))). cbn. by rewrite Hs0, bool_decide_true.
    - by rewrite Hja, bool_decide_true. }
  assert (Hr2 : removed c ev).
  { apply removed_app in Hr as [?|(k & abn & ask & Hx)]; [done|]. pose proof (step_notrem _ _ _ _ _ _ _ Hst) as Hn. cbn in Hn.
    rewrite Forall_forall in Hn. by apply Hn in Hx. }
  split; [|done]. destruct (h_next _ _ (ai_h _ _ _ Ha) c Hc) as [Hc0 _].
  destruct (r_created _ _ _ R' c) as [ch Hch]; [apply elem_of_app; by left|]. unfold state_of. rewrite Hch. cbn.
  by destruct (p_rem _ _ _ _ _ (r_child _ _ _ R' c ch Hc0 Hch) Hr) as [-> _].
Qed.
End proofs.
