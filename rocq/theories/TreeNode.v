(** One supervisor of the tree: what its steps keep. *)
From stdpp Require Import base list gmap.
From Verif Require Import Base ChildMgrModel ChildMgrSpec ChildMgrProofs ChildMgrTrace ChildMgrFacts FamilyModel FamilySpec FamilySteps FamilyFold FamilyInv FamilyChild FamilyProofs FamilyInit TreeModel TreeSpec TreeSteps TreeInv.
Open Scope N_scope.

Section node.
Context (hp : bool) (policy : spolicy) (sync : bool).
Notation step := (cstep hp policy sync).
Notation fstep := (fstep hp policy sync).
Notation manage := (manage hp policy sync).
Notation manage0 := (manage0 hp policy sync).

Lemma shut0_step s o s' e ev : step s o = Ok (s', e) -> match o with OChild _ _ => False | OTrigger a => a <> 0 | _ => True end -> allinv False s ev -> 0 ∉ cm_unsub s ->
  rank (cm_state s) < 5 -> shut0 s' = shut0 s.
Proof.
  intros H Hno Ha Hu H5. pose proof (ai_c _ _ _ Ha) as Hv.
  assert (Hkey : forall a i, cm_map s !! a = Some i -> ci_actor i = None -> a <> 0).
  { intros a i Hi Hx ->. destruct (v_self _ Hv i Hi). congruence. }
  pose proof (v_next _ Hv) as Hnx.
  destruct o as [|cfg|a ok|a|a failed|a|a subs ask|a ask| | | |id|d| | |st|x ch|m ask];
    cbn -[create_child spawn on_spawn on_create on_init on_shutdown_trigger on_shutdown_confirm remove_child handle_shutdown handle_start on_spawn_timer deactivate] in H.
  - destruct (create_child s None) as [s1 d] eqn:Hcr. inversion H; subst. unfold create_child in Hcr. inversion Hcr; subst. unfold shut0. cbn. rewrite lookup_insert_ne by lia. done.
  - unfold spawn in H. inversion H; subst. unfold shut0. cbn. rewrite lookup_insert_ne by lia. done.
  - destruct (take_first a (cm_spawnq s)) as [q|] eqn:Hq; [|by inversion H; subst]. unfold on_spawn in H. cbn [cm_map set_spawnq cm_state cm_initreq cm_now] in H.
    destruct (cm_map s !! a) as [i|] eqn:Hi; [|done]. 
    assert (Ha0 : a <> 0). { destruct (take_first_in _ _ _ Hq) as [Hin _]. destruct (v_q _ Hv a Hin) as (j & Hj & Hx & _). by eapply Hkey. }
    destruct (negb _); [by inversion H; subst|]. destruct (ok && _).
    + inversion H; subst. unfold shut0. cbn. rewrite lookup_insert_ne by lia. by rewrite lookup_delete_ne.
    + unfold shut0. repeat (case_match; simplify_eq; try done); unfold start_timer in *; simplify_eq; cbn; by rewrite lookup_insert_ne.
  - destruct (take_first a (cm_createq s)) as [q|]; [|by inversion H; subst]. unfold on_create in H. cbn in H. destruct (cm_map s !! a); [|done]. by inversion H; subst.
  - case_bool_decide; [|by inversion H; subst]. unfold on_init in H. unfold shut0. cbn [cm_map set_initout] in H.
    destruct failed; [repeat (case_match; simplify_eq; try done)|]. destruct (cm_map s !! a) as [i|] eqn:Hi; [|by inversion H; subst].
    inversion H; subst. cbn. destruct (decide (a = 0)) as [->|]; [rewrite lookup_insert, Hi; done|by rewrite lookup_insert_ne].
  - unfold on_shutdown_trigger in H. destruct (cm_map s !! a) as [i|] eqn:Hi; [|done]. unfold request_shutdown in H.
    destruct (ci_shut i); [|by inversion H; subst..]. destruct (ci_actor i) as [y|] eqn:Hy; [|done]. assert (y = a) by (by eapply v_key). subst y.
    destruct (cancel_kept s a) as (_ & Hk & _). apply N.eqb_neq in Hno as Hn0. rewrite Hn0 in H. injection H as <- <-. unfold shut0. cbn. rewrite lookup_insert_ne by done. by rewrite Hk.
  - case_bool_decide as Hb; [|by inversion H; subst]. assert (Ha0 : a <> 0). { apply (h_out _ _ (ai_h _ _ _ Ha)) in Hb. by apply (h_not _ _ (ai_h _ _ _ Ha)) in Hb as (_ & ? & _). }
    unfold on_shutdown_confirm in H. cbn [cm_map set_shutout] in H. destruct (cm_map s !! a) as [i|]; [|done].
    destruct (ci_actor i); [|done]. destruct subs; [inversion H; subst; unfold shut0; cbn; by rewrite lookup_insert_ne|].
    destruct (remove_child _ _ _ _) as [[s2 e2]| |] eqn:Hr; try done. cbn in H. inversion H; subst. apply remove_shut0 in Hr; [|done]. rewrite Hr. unfold shut0. cbn. by rewrite lookup_insert_ne.
  - case_bool_decide; [|by inversion H; subst]. apply remove_shut0 in H; [done|]. intros ->. done.
  - by inversion H; subst.
  - case_bool_decide as Hb; [rewrite Hb in H5; done|by inversion H; subst].
  - case_bool_decide; [|by inversion H; subst]. unfold handle_start in H. destruct sync; [|by inversion H; subst]. inversion H; subst.
    unfold shut0. cbn. rewrite map_lookup_imap. by destruct (cm_map s !! 0).
  - destruct (cm_timers s !! id) as [d|] eqn:Hd; [|by inversion H; subst]. destruct (_ <=? _); [|by inversion H; subst].
    unfold on_spawn_timer in H. destruct (cm_spawning s !! id) as [key|] eqn:Hk; [|done]. cbn in H.
    destruct (v_spawning _ Hv _ _ Hk) as (Hid & _ & _ & i & Hi & Ht). rewrite Hi in H.
    assert (Ha0 : key <> 0). { eapply Hkey; [exact Hi|]. apply (v_timer _ Hv key i Hi). congruence. }
    destruct (_ <=? 4); inversion H; subst; unfold shut0; cbn; by rewrite lookup_insert_ne.
  - by inversion H; subst.
  - by inversion H; subst.
  - repeat (case_match; simplify_eq; try done).
  - repeat (case_match; simplify_eq; try done).
  - done.
  - case_bool_decide as Hb; [rewrite Hb in H5; done|by inversion H; subst].
Qed.


(** ** Who is told that it is initialized *)
Lemma remove_ok s a ask s' e c : remove_child policy s a ask = Ok (s', e) -> EInitOk c ∉ e.
Proof.
  intros H Hc. unfold remove_child in H. destruct (cm_map s !! a) as [i|]; [|done].
  assert (Hself : forall x, EInitOk c ∉ self_shutdown x) by (intros x Hx; by apply self_in in Hx as [? _]).
  assert (Hcont : forall x, EInitOk c ∉ init_continue x) by (intros x Hx; by apply init_cont_in in Hx).
  set (p1 := (if bool_decide (cm_state s = AInitializing) && negb (ci_started i) then
        if bool_decide (policy = PShutdownFailed) then (s, self_shutdown s)
        else if cm_initreq s then (set_initreq s false, [EInitError]) else (s, [])
      else (s, []))) in H.
  assert (H1 : EInitOk c ∉ p1.2).
  { unfold p1. clear -Hself. repeat case_match; cbn; try apply not_elem_of_nil; [apply Hself|]. intros Hx. by apply elem_of_list_singleton in Hx. }
  destruct p1 as [s1 e1]. cbn [fst snd] in H1. destruct (ci_actor i) as [d|]; [|done].
  match type of H with match ?p with _ => _ end = _ => set (p2 := p) in H end.
  assert (H2 : EInitOk c ∉ p2.1.1.2).
  { unfold p2. destruct (_ && _); [|apply not_elem_of_nil]. destruct (next_spawn _ _ _ _) as [i' []]; cbn; try apply not_elem_of_nil; intros Hx; by apply elem_of_list_singleton in Hx. }
  destruct p2 as [[[s3 e3] i3] er]. cbn [fst snd] in H2. injection H as _ <-.
  apply elem_of_app in Hc as [?|Hc]; [done|]. apply elem_of_cons in Hc as [?|Hc]; [done|]. apply elem_of_app in Hc as [?|Hc]; [done|].
  apply elem_of_app in Hc as [Hc|Hc]; [|by apply Hcont in Hc]. destruct (_ && _); [by apply elem_of_list_singleton in Hc|by apply elem_of_nil in Hc].
Qed.
Lemma ok_ops s o s' e c : step s o = Ok (s', e) -> EInitOk c ∈ e -> o = OOnInit c false.
Proof.
  intros H Hc.
  assert (Hself : forall x, EInitOk c ∉ self_shutdown x) by (intros x Hx; by apply self_in in Hx as [? _]).
  assert (Hcont : forall x, EInitOk c ∉ init_continue x) by (intros x Hx; by apply init_cont_in in Hx).
  assert (Hall : forall x, EInitOk c ∉ (request_shutdown_all x).2).
  { intros x Hx. destruct (all_kept x) as (_ & _ & _ & _ & _ & _ & _ & _ & Hk). apply Hk in Hx as [?|[? ?]]; done. }
  destruct o as [|cfg|a ok|a|a failed|a|a subs ask|a ask| | | |id|d| | |st|x ch|m ask];
    cbn -[create_child spawn on_spawn on_create on_init on_shutdown_trigger on_shutdown_confirm remove_child handle_shutdown handle_start on_spawn_timer deactivate] in H.
  5: { case_bool_decide; [|injection H as _ <-; by apply elem_of_nil in Hc]. unfold on_init in H. destruct failed.
       - exfalso. assert (Hl : e = self_shutdown (set_initout s (cm_initout s ∖ {[a]})) \/ EInitOk c ∉ e); [|destruct Hl as [->|?]; [by eapply Hself|done]].
         repeat (case_match; simplify_eq; try done); auto; right; try (intros Hx; by apply elem_of_list_singleton in Hx).
         unfold child_shutdown. repeat case_match; intros Hx; [by apply elem_of_list_singleton in Hx|by apply elem_of_nil in Hx..].
       - set (p := match cm_map (set_initout s (cm_initout s ∖ {[a]})) !! a with Some _ => _ | None => _ end) in H.
         assert (Hp : EInitOk c ∈ p.2 -> c = a). { unfold p. destruct (_ !! a); cbn; [|intros Hx; by apply elem_of_nil in Hx].
           intros Hx. apply elem_of_cons in Hx as [Hx|Hx]; [by injection Hx|]. exfalso. revert Hx. match goal with |- _ ∈ (if ?b then _ else _) -> _ => destruct b end; intros Hx; [by apply elem_of_list_singleton in Hx|by apply elem_of_nil in Hx]. }
         destruct p as [s1 e1]. injection H as _ <-. apply elem_of_app in Hc as [Hc|Hc]; [by rewrite (Hp Hc)|]. destruct (negb _); [by apply Hcont in Hc|by apply elem_of_nil in Hc]. }
  all: exfalso.
  - destruct (create_child s None) as [s1 d]. injection H as _ <-. by apply elem_of_list_singleton in Hc.
  - unfold spawn in H. injection H as _ <-. apply elem_of_cons in Hc as [?|Hc]; [done|]. by apply elem_of_list_singleton in Hc.
  - destruct (take_first a (cm_spawnq s)) as [q|]; [|injection H as _ <-; by apply elem_of_nil in Hc]. unfold on_spawn in H. destruct (_ !! a) as [i|]; [|done].
    destruct (negb _); [injection H as _ <-; by apply elem_of_nil in Hc|]. destruct (ok && _).
    + destruct (create_child _ _) as [s1 d]. injection H as _ <-. do 2 (apply elem_of_cons in Hc as [?|Hc]; [done|]). by apply elem_of_list_singleton in Hc.
    + match type of H with match ?p with _ => _ end = _ => set (p2 := p) in H end.
      assert (H2 : EInitOk c ∉ p2.1.2). { unfold p2. clear -Hself. repeat case_match; cbn; try apply not_elem_of_nil; [|apply Hself]. intros Hx. by apply elem_of_list_singleton in Hx. }
      destruct p2 as [[s1 e1] t]. cbn in H2. destruct t; [destruct (start_timer _ _ _) as [s2 id]|]; injection H as _ <-; (apply elem_of_cons in Hc as [?|Hc]; [done|]); [|done].
      apply elem_of_app in Hc as [?|Hc]; [done|]. by apply elem_of_list_singleton in Hc.
  - destruct (take_first a (cm_createq s)) as [q|]; [|injection H as _ <-; by apply elem_of_nil in Hc]. unfold on_create in H. destruct (_ !! a); [|done]. injection H as _ <-. by apply elem_of_list_singleton in Hc.
  - unfold on_shutdown_trigger in H. destruct (_ !! a) as [i|]; [|done]. unfold request_shutdown in H. destruct (ci_shut i); [|injection H as _ <-; by apply elem_of_nil in Hc..].
    destruct (ci_actor i) as [y|]; [|done]. destruct (y =? 0); [|injection H as _ <-; by apply elem_of_list_singleton in Hc].
    apply if_or in H as [H|H]; [injection H as _ <-; by apply Hself in Hc|]. case_bool_decide; [injection H as _ <-; by apply elem_of_nil in Hc|].
    match type of H with context [request_shutdown_all ?x] => pose proof (Hall x) as Hx; destruct (request_shutdown_all x) as [s1 e1] end.
    injection H as _ <-. apply elem_of_cons in Hc as [?|Hc]; [done|]. apply elem_of_app in Hc as [?|Hc]; [done|]. by apply elem_of_list_singleton in Hc.
  - case_bool_decide; [|injection H as _ <-; by apply elem_of_nil in Hc]. unfold on_shutdown_confirm in H. destruct (_ !! a) as [i|]; [|done]. destruct (ci_actor i); [|done].
    assert (Hch : forall x, EInitOk c ∉ on_child_shutdown x a). { intros x. unfold on_child_shutdown. destruct (_ && _); [|apply not_elem_of_nil]. intros Hx. by apply elem_of_list_singleton in Hx. }
    destruct subs; [injection H as _ <-; by apply Hch in Hc|]. destruct (remove_child _ _ _ _) as [[s2 e2]| |] eqn:Hr; try done. cbn in H. injection H as _ <-.
    apply elem_of_app in Hc as [Hc|Hc]; [|by apply Hch in Hc]. by eapply remove_ok.
  - case_bool_decide; [|injection H as _ <-; by apply elem_of_nil in Hc]. by eapply remove_ok.
  - injection H as _ <-. by apply elem_of_list_singleton in Hc.
  - case_bool_decide; [|injection H as _ <-; by apply elem_of_nil in Hc]. unfold handle_shutdown in H. destruct (_ !! 0) as [i|]; [|done].
    match type of H with context [request_shutdown_all ?x] => pose proof (Hall x) as Hx; destruct (request_shutdown_all x) as [s1 e1] end.
    injection H as _ <-. apply elem_of_app in Hc as [?|Hc]; [done|]. by apply elem_of_list_singleton in Hc.
  - case_bool_decide; [|injection H as _ <-; by apply elem_of_nil in Hc]. unfold handle_start in H. destruct sync; injection H as _ <-; (apply elem_of_cons in Hc as [?|Hc]; [done|]); [|by apply elem_of_nil in Hc].
    apply elem_of_list_omap in Hc as ([b j] & _ & Hx). by destruct (b =? 0).
  - destruct (cm_timers s !! id) as [d|]; [|injection H as _ <-; by apply elem_of_nil in Hc]. destruct (_ <=? _); [|injection H as _ <-; by apply elem_of_nil in Hc].
    unfold on_spawn_timer in H. repeat case_match; try done; injection H as _ <-; [by apply elem_of_list_singleton in Hc|by apply elem_of_nil in Hc].
  - injection H as _ <-. by apply elem_of_nil in Hc.
  - injection H as _ <-. by apply elem_of_nil in Hc.
  - injection H as _ <-. by apply elem_of_nil in Hc.
  - destruct (sup_moves _ _ _); injection H as _ <-; by apply elem_of_nil in Hc.
  - destruct (_ !! x); [|injection H as _ <-; by apply elem_of_nil in Hc]. destruct (decide _); injection H as _ <-; by apply elem_of_nil in Hc.
  - case_bool_decide; [|injection H as _ <-; by apply elem_of_nil in Hc]. unfold deactivate in H. destruct (_ && _); [by eapply remove_ok|injection H as _ <-; by apply elem_of_nil in Hc].
Qed.

(** ** Messages and the phase after a step of the child manager *)
Definition watched (m : fmsg) : Prop := badm m \/ exists c, c <> 0 /\ m = MInitResp c false.
Lemma react_new fo ea s x m : watched m -> infl (react hp fo ea s x) m -> infl s m \/ (m = MInitReq 0 /\ x = EInitReq 0) \/ (m = MCreate 0 /\ x = ECreated 0).
Proof.
  intros Hm Hi.
  assert (Hp : forall s1 y, f_q s1 = f_q s -> f_up s1 = f_up s -> infl (push s1 [y]) m -> infl s m \/ m = y).
  { intros s1 y H1 H2 Hx. apply infl_app in Hx as [Hx|Hx]; [left; unfold infl, upl in *; by rewrite H1, H2 in Hx|right; by apply elem_of_list_singleton in Hx]. }
  assert (Hw : forall y, watched y -> (exists a, y = MTrigger a) \/ (exists a, y = MSpawn a) \/ (exists a, y = MShutReq a) \/ y = MInitResp 0 true -> False).
  { intros y [[->| ->]|(d & Hd & ->)] [[? ?]|[[? ?]|[[? ?]|?]]]; simplify_eq. }
  destruct x; cbn in Hi; auto; try (apply Hp in Hi as [?| ->]; [by left| |done|done]); try (exfalso; by eapply Hw; [exact Hm|eauto]).
  - set (s1 := if fo then _ else s) in Hi. assert (H1 : f_q s1 = f_q s /\ f_up s1 = f_up s) by (unfold s1; by destruct fo). destruct H1 as [H1 H2].
    apply infl_app in Hi as [Hi|Hi].
    + assert (H3 : infl s1 m \/ m = MTrigger c). { destruct ea; [|by left]. apply infl_from in Hi as [?|Hi]; [by left|right; by apply elem_of_list_singleton in Hi]. }
      destruct H3 as [H3| ->]; [left; unfold infl, upl in *; by rewrite H1, H2 in H3|]. exfalso. by eapply Hw; [exact Hm|eauto].
    + apply elem_of_list_singleton in Hi as ->. destruct Hm as [[?|Hx]|(? & ? & ?)]; try done. injection Hx as ->. right; right. done.
  - destruct Hm as [[Hx|?]|(? & ? & ?)]; try done. injection Hx as ->. right; left. done.
  - revert Hi. generalize hp. intros b Hi. destruct b; [by left|]. apply Hp in Hi as [?| ->]; [by left| |done|done]. exfalso. by eapply Hw; [exact Hm|eauto].
  - revert Hi. generalize hp. intros b Hi. destruct b; [by left|]. apply Hp in Hi as [?| ->]; [by left| |done|done]. exfalso. by eapply Hw; [exact Hm|eauto].
  - apply infl_from in Hi as [?|Hi]; [by left|]. apply elem_of_list_singleton in Hi as ->. exfalso. by eapply Hw; [exact Hm|eauto].
  - destruct b; by left.
Qed.
Lemma fold_new fo ea e m : watched m -> forall s, infl (foldl (react hp fo ea) s e) m -> infl s m \/ (m = MInitReq 0 /\ EInitReq 0 ∈ e) \/ (m = MCreate 0 /\ ECreated 0 ∈ e).
Proof.
  intros Hm. induction e as [|x e IH]; intros s Hi; [by left|]. cbn in Hi. apply IH in Hi as [Hi|[[? ?]|[? ?]]]; [|right; left; split; [done|by right]|right; right; split; [done|by right]].
  apply react_new in Hi as [?|[[? ->]|[? ->]]]; [by left|right; left; split; [done|left]|right; right; split; [done|left]|done].
Qed.
Lemma react_phase fo ea s x : f_phase (react hp fo ea s x) = if decide (x = EVoteShutdown true) then PAgreed else f_phase s.
Proof.
  destruct x; cbn; try done; try (by generalize hp; intros []; done).
  - destruct ea, fo; unfold from; repeat (destruct (decide _)); done.
  - unfold from. repeat (destruct (decide _)); done.
  - destruct b; [by rewrite decide_True|by rewrite decide_False].
Qed.
Lemma fold_phase fo ea e : forall s, f_phase (foldl (react hp fo ea) s e) = if decide (EVoteShutdown true ∈ e) then PAgreed else f_phase s.
Proof.
  induction e as [|x e IH]; intros s; cbn; [rewrite decide_False by apply not_elem_of_nil; done|]. rewrite IH, react_phase.
  destruct (decide (EVoteShutdown true ∈ e)) as [H|H]; [rewrite decide_True by (by right); done|].
  destruct (decide (x = EVoteShutdown true)) as [->|Hx]; [rewrite decide_True by left; done|]. rewrite decide_False; [done|].
  intros Hy. apply elem_of_cons in Hy as [?|?]; congruence.
Qed.
Lemma manage_new fo ea s o s' e m : manage fo ea s o = Ok (s', e) -> watched m -> infl s' m -> infl s m \/ (m = MInitReq 0 /\ EInitReq 0 ∈ e) \/ (m = MCreate 0 /\ ECreated 0 ∈ e).
Proof.
  unfold FamilyModel.manage. destruct (step (f_cm s) o) as [[cm e1]| |]; try done. cbn. intros H Hm Hi. injection H as <- <-.
  apply (fold_new fo ea e1 m Hm (set_cm s cm)). exact Hi.
Qed.
Lemma manage_phase fo ea s o s' e : manage fo ea s o = Ok (s', e) -> f_phase s' = if decide (EVoteShutdown true ∈ e) then PAgreed else f_phase s.
Proof.
  unfold FamilyModel.manage. destruct (step (f_cm s) o) as [[cm e1]| |]; try done. cbn. intros H. injection H as <- <-. cbn. by rewrite fold_phase.
Qed.

(** ** The invariant *)
Definition selfw (s : cstate) (ev : list cevent) : Prop := forall i, cm_map s !! 0 = Some i -> ci_shut i <> SNone -> ESelfShutdown ∈ ev \/ 5 <= rank (cm_state s).
Definition pleads (s : fstate) (ev : list cevent) : Prop := infl s (MTrigger 0) \/ ESelfShutdown ∈ ev \/ 5 <= rank (cm_state (f_cm s)).
Record xinv (s : fstate) (ev : list cevent) : Prop := {
  x_known : forall c, known s c -> c <> 0 -> ECreated c ∈ ev;
  x_created : forall c, ECreated c ∈ ev -> known s c;
  x_down : forall c, c <> 0 -> state_of s c = Some AShutDown -> c ∈ f_bye s;
  x_left : f_phase s <> PWorking -> idle_map (f_cm s) /\ forall c st, c <> 0 -> state_of s c = Some st -> st = AShutDown;
  x_vote : EVoteShutdown true ∈ ev -> f_phase s <> PWorking;
  x_ok : forall c, c <> 0 -> infl s (MInitResp c false) \/ EInitOk c ∈ ev -> up3 s c;
  x_bad : hp = true -> forall m, badm m -> ~ infl s m;
  x_own : hp = true -> 0 ∉ f_bye s -> selfw (f_cm s) ev /\ (EEscalate ∈ ev -> pleads s ev)
}.
Lemma xinv_init : xinv (finit hp) [].
Proof.
  assert (Hk : forall c, c <> 0 -> cm_children (f_cm (finit hp)) !! c = None) by (intros c Hc; cbn; by rewrite lookup_singleton_ne).
  assert (Hi : forall m, infl (finit hp) m -> hp = false /\ m = MInitReq 0).
  { intros m [Hx|[c Hx]]; [|cbn in Hx; by apply elem_of_nil in Hx]. cbn in Hx. revert Hx. generalize hp. intros b Hx. destruct b; [by apply elem_of_nil in Hx|]. by apply elem_of_list_singleton in Hx. }
  split.
  - intros c [x Hx] Hc. by rewrite Hk in Hx.
  - intros c Hc. by apply elem_of_nil in Hc.
  - intros c Hc Hx. unfold state_of in Hx. by rewrite Hk in Hx.
  - done.
  - intros Hc. by apply elem_of_nil in Hc.
  - intros c Hc [Hx|Hx]; [by apply Hi in Hx as [_ ?]|by apply elem_of_nil in Hx].
  - intros Hp m Hm Hx. apply Hi in Hx as [? _]. congruence.
  - intros _ _. split; [|intros Hx; by apply elem_of_nil in Hx]. intros i Hx. cbn in Hx. rewrite lookup_singleton in Hx. injection Hx as <-. done.
Qed.

Lemma known_lt s ev c : finv s ev -> xinv s ev -> known s c -> c < cm_next (f_cm s).
Proof.
  intros Hf Hx Hk. destruct (decide (c = 0)) as [->|Hc]; [pose proof (v_next _ (ai_c _ _ _ (fi_all _ _ Hf))); lia|].
  by apply (h_next _ _ (ai_h _ _ _ (fi_all _ _ Hf)) c), (x_known _ _ Hx).
Qed.
Lemma state_known s c st : state_of s c = Some st -> known s c.
Proof. unfold state_of, known. by destruct (_ !! c). Qed.
Lemma bye_sub s o s' e c : fstep s o = Ok (s', e) -> c ∈ f_bye s -> c ∈ f_bye s'.
Proof.
  intros H Hc. apply step_shape in H as [fo ea co s1 s2 l P Hm -> _ _|_ So]; [|by apply So]. cbn. rewrite (react_bye' hp policy sync _ _ _ _ _ _ Hm). by rewrite (pr_bye _ _ _ P).
Qed.

(** A child which is shut down stays so. *)
Lemma after_down s o c ch : cm_children (f_cm s) !! c = Some ch -> ch_state ch = AShutDown -> c ∈ f_bye s -> after s o c = Some ch.
Proof.
  intros Hch Hst Hb. unfold after. rewrite Hch. cbn -[downcall]. f_equal.
  assert (Hd : forall f, downcall s o <> Some (c, f)).
  { intros f. unfold downcall. destruct o; try done.
    - destruct (f_q s) as [|m q]; [done|]. unfold handled. destruct m as [| |d| | | |d| | | |]; try done; destruct (_ || _); try done; destruct (decide (d ∈ f_bye s)); try done; intros [= -> _]; done.
    - destruct (downl s c0) as [|m q]; [done|]. unfold handled. destruct (decide (c0 ∈ f_bye s)); [done|]. destruct m; try done; intros [= -> _]; done. }
  destruct o; try done.
  - destruct (downcall _ _) as [[d f]|]; [|done]. assert (Hne : d =? c = false) by (apply N.eqb_neq; intros ->; by destruct (Hd f)). rewrite Hne. by destruct f.
  - destruct (downcall _ _) as [[d f]|]; [|done]. assert (Hne : d =? c = false) by (apply N.eqb_neq; intros ->; by destruct (Hd f)). rewrite Hne. by destruct f.
  - rewrite Hst. cbn. by rewrite andb_false_r.
  - rewrite Hst. cbn. by rewrite andb_false_r.
  - rewrite Hst. cbn. by rewrite andb_false_r.
Qed.
Lemma down_after s o c ch ch' : cm_children (f_cm s) !! c = Some ch -> after s o c = Some ch' -> ch_state ch' = AShutDown -> ch_state ch = AShutDown \/ c ∈ f_bye s.
Proof.
  intros Hch Ha Hst. unfold after in Ha. rewrite Hch in Ha. cbn -[downcall] in Ha. injection Ha as <-.
  destruct o; try (by left).
  - destruct (downcall _ _) as [[d []]|]; try (by left); destruct (d =? c); by left.
  - destruct (downcall _ _) as [[d []]|]; try (by left); destruct (d =? c); by left.
  - destruct (_ && _); [|by left]. destruct failed; done.
  - destruct (_ && _); [done|by left].
  - destruct ((_ =? _) && _ && _) eqn:Hx; [|by left]. right. apply andb_true_iff in Hx as [_ Hx]. by apply bool_decide_eq_true in Hx.
Qed.

Section step.
Context (s : fstate) (ev : list cevent) (o : fop) (s' : fstate) (e : list cevent).
Context (Hf : finv s ev) (Hf' : finv s' (ev ++ e)) (Hx : xinv s ev) (Ho : orderly s o) (Ht : timely s o) (H : fstep s o = Ok (s', e)).
Context (Hvote : EVoteShutdown true ∈ e -> o = FVote -> forall c, ECreated c ∈ ev -> state_of s' c = Some AShutDown).

Lemma x_old c : known s c -> c <> 0 -> cm_children (f_cm s') !! c = after s o c.
Proof. intros Hk Hc. eapply step_child; [apply Hf|exact H| |done]. by eapply known_lt. Qed.
Lemma x_kept c : known s c -> c <> 0 -> known s' c.
Proof. intros Hk Hc. unfold known. rewrite x_old by done. unfold after. destruct Hk as [x ->]. done. Qed.

Lemma manage_eff fo ea co s1 s2 : pre s co s1 -> manage fo ea s1 co = Ok (s2, e) -> fits s o co ->
  allinv False (f_cm s1) ev /\ step (f_cm s1) co = Ok (f_cm s2, e) /\ eff (f_cm s1) co (f_cm s2) e.
Proof.
  intros P Hm Hfi. assert (Ha : allinv False (f_cm s1) ev).
  { destruct (pr_cm _ _ _ P) as [->|[x ->]]; [apply Hf|]. pose proof (fi_all _ _ Hf) as Hfa. by apply allinv_weak with (f_cm s). }
  destruct (manage_keeps hp policy sync fo ea s1 co s2 e Hm) as (_ & _ & _ & _ & Hst). split; [done|]. split; [done|].
  eapply step_eff; [apply Ha| |exact Hst]. by destruct co.
Qed.
Lemma x_new c : known s' c -> known s c \/ ECreated c ∈ e.
Proof.
  pose proof H as Hsh. apply step_shape in Hsh as [fo ea co s1 s2 l P Hm Hs Hfi Hl|He So]; [|intros Hk; left; by apply So].
  destruct (manage_eff fo ea co s1 s2 P Hm Hfi) as (_ & _ & E). intros Hk. destruct (decide (ECreated c ∈ e)) as [?|Hn]; [by right|left].
  subst s'. unfold known in *. cbn in Hk. rewrite (ef_old _ _ _ _ E c Hn) in Hk. destruct (pr_cm _ _ _ P) as [Heq|[y Heq]]; by rewrite Heq in Hk.
Qed.
Lemma x_fresh c : ECreated c ∈ e -> state_of s' c = Some AInitializing /\ exists co, fits s o co /\ (co = OCreate \/ exists a ok, co = OOnSpawn a ok).
Proof.
  intros Hc. pose proof H as Hsh. apply step_shape in Hsh as [fo ea co s1 s2 l P Hm Hs Hfi Hl|He So]; [|subst e; by apply elem_of_nil in Hc].
  destruct (manage_eff fo ea co s1 s2 P Hm Hfi) as (_ & _ & E). split; [subst s'; unfold state_of; cbn; by rewrite (ef_new _ _ _ _ E c Hc)|].
  exists co. split; [done|]. pose proof (ef_kind _ _ _ _ E) as Hk. rewrite Forall_forall in Hk. by apply Hk in Hc as [_ ?].
Qed.
Lemma x_ph : f_phase s <> PWorking \/ EVoteShutdown true ∈ e -> f_phase s' <> PWorking.
Proof.
  intros Hp. pose proof H as Hsh. apply step_shape in Hsh as [fo ea co s1 s2 l P Hm Hs Hfi Hl|He So].
  - subst s'. cbn. rewrite (manage_phase _ _ _ _ _ _ Hm). destruct (decide _) as [|Hn]; [done|]. destruct Hp as [Hp|?]; [|done]. destruct (pr_phase _ _ _ P) as [->|[_ ->]]; done.
  - rewrite (so_phase _ _ So). destruct Hp as [?|Hp]; [done|]. subst e. by apply elem_of_nil in Hp.
Qed.
Lemma x_map : f_phase s <> PWorking -> idle_map (f_cm s') /\ forall c, ECreated c ∉ e.
Proof.
  intros Hp. destruct (x_left _ _ Hx Hp) as [Hi _]. pose proof H as Hsh. apply step_shape in Hsh as [fo ea co s1 s2 l P Hm Hs Hfi Hl|He So].
  - destruct (manage_eff fo ea co s1 s2 P Hm Hfi) as (Ha & Hst & E). subst s'. cbn. eapply (idle_step hp policy sync (f_cm s1) co); [apply Ha| | |exact Hst].
    + eapply idle_same; [|exact Hi]. by destruct (pr_cm _ _ _ P) as [->|[y ->]].
    + destruct co; try done.
      * destruct Hfi as (? & ? & Heq). rewrite Heq in Ht. done.
      * cbn in Hfi. rewrite Hfi in Ht. done.
  - subst e. split; [|intros c; apply not_elem_of_nil]. destruct (so_cm _ _ So) as [M ->]. by eapply idle_same; [|exact Hi].
Qed.
Lemma step_left : f_phase s' <> PWorking -> idle_map (f_cm s') /\ forall c st, c <> 0 -> state_of s' c = Some st -> st = AShutDown.
Proof.
  intros Hp'. destruct (decide (f_phase s = PWorking)) as [Hp|Hp].
  - pose proof H as Hsh. apply step_shape in Hsh as [fo ea co s1 s2 l P Hm Hs Hfi Hl|He So]; [|by rewrite (so_phase _ _ So) in Hp'].
    destruct (manage_eff fo ea co s1 s2 P Hm Hfi) as (Ha & Hst & E).
    pose proof (manage_phase _ _ _ _ _ _ Hm) as Hph. assert (Hp1 : f_phase s1 = PWorking) by (destruct (pr_phase _ _ _ P) as [->|[? _]]; [done|congruence]).
    assert (Hv : EVoteShutdown true ∈ e). { destruct (decide (EVoteShutdown true ∈ e)) as [|Hn]; [done|]. subst s'. cbn in Hp'. congruence. }
    pose proof (ef_kind _ _ _ _ E) as Hk. rewrite Forall_forall in Hk. pose proof (Hk _ Hv) as Hco. cbn in Hco. subst co. destruct Hfi as [Heq _].
    assert (Hno : forall c, ECreated c ∉ e). { intros c Hc. apply Hk in Hc as [_ [?|(? & ? & ?)]]; done. }
    split; [subst s'; cbn; by eapply vote_idle|]. intros c st Hc Hs1. apply state_known in Hs1 as Hk1. apply x_new in Hk1 as [Hk1|Hk1]; [|by apply Hno in Hk1].
    rewrite (Hvote Hv Heq c) in Hs1; [by injection Hs1|]. by apply (x_known _ _ Hx).
  - destruct (x_map Hp) as [Hi Hno]. split; [done|]. intros c st Hc Hs1. destruct (x_left _ _ Hx Hp) as [_ Hd].
    apply state_known in Hs1 as Hk1. apply x_new in Hk1 as [Hk1|Hk1]; [|by apply Hno in Hk1].
    unfold state_of in Hs1. rewrite (x_old c Hk1 Hc) in Hs1. destruct Hk1 as [ch Hch]. assert (Hst : state_of s c = Some (ch_state ch)) by (unfold state_of; by rewrite Hch).
    pose proof (Hd c _ Hc Hst) as Hdn. rewrite Hdn in Hst. rewrite (after_down s o c ch Hch Hdn (x_down _ _ Hx c Hc Hst)) in Hs1. cbn in Hs1. congruence.
Qed.
Lemma step_down c : c <> 0 -> state_of s' c = Some AShutDown -> c ∈ f_bye s'.
Proof.
  intros Hc Hs1. apply state_known in Hs1 as Hk1. apply x_new in Hk1 as [Hk1|Hk1]; cycle 1.
  { destruct (x_fresh c Hk1) as [Hs2 _]. congruence. }
  eapply bye_sub; [exact H|]. unfold state_of in Hs1. rewrite (x_old c Hk1 Hc) in Hs1. destruct Hk1 as [ch Hch].
  destruct (after s o c) as [ch'|] eqn:Ha; [|done]. cbn in Hs1. injection Hs1 as Hs1. destruct (down_after _ _ _ _ _ Hch Ha Hs1) as [Hd|?]; [|done].
  apply (x_down _ _ Hx c Hc). unfold state_of. rewrite Hch. cbn. congruence.
Qed.
Lemma step_up3 c : c <> 0 -> up3 s c -> up3 s' c.
Proof.
  intros Hc Hu. pose proof H as Hsh. apply step_shape in Hsh as [fo ea co s1 s2 l P Hm Hs Hfi Hl|He So]; [|by apply So].
  destruct (manage_eff fo ea co s1 s2 P Hm Hfi) as (Ha & Hst & E). destruct Hu as (st & Hu & Hr). exists st. split; [|done]. rewrite <-Hu.
  apply state_known in Hu. assert (Hn : ECreated c ∉ e). { intros Hn. pose proof (ef_kind _ _ _ _ E) as Hk. rewrite Forall_forall in Hk. apply Hk in Hn as [Hn _].
    pose proof (known_lt _ _ _ Hf Hx Hu). destruct (pr_cm _ _ _ P) as [Heq|[y Heq]]; rewrite Heq in Hn; cbn in Hn; lia. }
  subst s'. unfold state_of. cbn. rewrite (ef_old _ _ _ _ E c Hn). by destruct (pr_cm _ _ _ P) as [->|[y ->]].
Qed.
Lemma step_okay c : c <> 0 -> infl s' (MInitResp c false) \/ EInitOk c ∈ ev ++ e -> up3 s' c.
Proof.
  intros Hc Hi. assert (Hold : infl s (MInitResp c false) \/ EInitOk c ∈ ev -> up3 s' c) by (intros Hi'; apply step_up3; [done|]; by apply (x_ok _ _ Hx)).
  pose proof H as Hsh. apply step_shape in Hsh as [fo ea co s1 s2 l P Hm Hs Hfi Hl|He So].
  - assert (Hs1 : forall m, infl s1 m -> infl s m).
    { intros m [Hq|[d Hq]]; [|right; exists d; unfold upl in *; by rewrite (pr_up _ _ _ P) in Hq]. left. destruct (pr_q _ _ _ P) as [Heq|(x & Heq & _)]; [by rewrite Heq in Hq|]. rewrite Heq. by right. }
    destruct Hi as [Hi|Hi].
    + subst s'. apply infl_app in Hi as [Hi|Hi]; [|apply Hl in Hi as [_ Hi]; exfalso; by eapply Hc, Hi].
      apply (manage_new _ _ _ _ _ _ _ Hm) in Hi as [Hi|[[? _]|[? _]]]; [|done|done|right; by exists c]. apply Hold. left. by apply Hs1.
    + apply elem_of_app in Hi as [Hi|Hi]; [by apply Hold; right|]. destruct (manage_eff fo ea co s1 s2 P Hm Hfi) as (Ha & Hst & E).
      pose proof (ok_ops _ _ _ _ _ Hst Hi) as ->. cbn in Hfi. apply Hold. left. left. by apply Hfi.
  - subst e. rewrite app_nil_r in Hi. destruct Hi as [Hi|Hi]; [|by apply Hold; right]. apply (so_ok _ _ So) in Hi as [?|?]; [by apply Hold; left|done].
Qed.
Lemma step_bad : hp = true -> forall m, badm m -> ~ infl s' m.
Proof.
  intros Hp m Hm Hi. pose proof (x_bad _ _ Hx Hp) as Hb. pose proof H as Hsh. apply step_shape in Hsh as [fo ea co s1 s2 l P Hmg Hs Hfi Hl|He So]; [|apply (so_bad _ _ So) in Hi; [|done]; by eapply Hb].
  assert (Hs1 : forall m, infl s1 m -> infl s m).
  { intros y [Hq|[d Hq]]; [|right; exists d; unfold upl in *; by rewrite (pr_up _ _ _ P) in Hq]. left. destruct (pr_q _ _ _ P) as [Heq|(x & Heq & _)]; [by rewrite Heq in Hq|]. rewrite Heq. by right. }
  subst s'. apply infl_app in Hi as [Hi|Hi]; [|by apply Hl in Hi as [? _]]. destruct (manage_eff fo ea co s1 s2 P Hmg Hfi) as (Ha & Hst & E).
  pose proof (ef_kind _ _ _ _ E) as Hk. rewrite Forall_forall in Hk.
  apply (manage_new _ _ _ _ _ _ _ Hmg) in Hi as [Hi|[[? Hi]|[? Hi]]]; [by eapply Hb, Hs1| | |by left].
  - apply Hk in Hi. cbn in Hi. subst co. cbn in Hfi. apply (Hb (MCreate 0)); [by right|by left].
  - apply Hk in Hi as [Hi _]. pose proof (v_next _ (ai_c _ _ _ Ha)). lia.
Qed.
Lemma rank_kept : 5 <= rank (cm_state (f_cm s)) -> 5 <= rank (cm_state (f_cm s')).
Proof.
  intros Hr. pose proof H as Hsh. apply step_shape in Hsh as [fo ea co s1 s2 l P Hm Hs Hfi Hl|He So]; [|by destruct (so_cm _ _ So) as [M ->]].
  destruct (manage_eff fo ea co s1 s2 P Hm Hfi) as (Ha & Hst & E). subst s'. cbn. apply (ef_rank _ _ _ _ E). by destruct (pr_cm _ _ _ P) as [->|[y ->]].
Qed.
Lemma self_plea s1 s2 : hp = true -> allinv False s1 ev -> selfw s1 ev -> step s1 (OTrigger 0) = Ok (s2, e) -> ESelfShutdown ∈ ev ++ e \/ 5 <= rank (cm_state s1).
Proof.
  intros Hp Ha Hw Hst. cbn -[request_shutdown_all on_shutdown_trigger] in Hst. unfold on_shutdown_trigger in Hst. destruct (cm_map s1 !! 0) as [i|] eqn:Hi; [|done]. unfold request_shutdown in Hst.
  destruct (decide (ci_shut i = SNone)) as [Hs|Hs].
  - rewrite Hs in Hst. destruct (ci_actor i) as [y|] eqn:Hy; [|done]. assert (y = 0) by (eapply v_key; eauto; apply Ha). subst y. rewrite N.eqb_refl, Hp in Hst.
    injection Hst as _ He. destruct (decide (5 <= rank (cm_state s1))) as [?|Hr]; [by right|left]. apply elem_of_app. right. rewrite <-He. unfold self_shutdown.
    destruct (cancel_init_eq s1 0) as [z ->]. cbn. rewrite (proj2 (N.ltb_lt _ _)) by lia. left.
  - destruct (Hw i Hi Hs) as [?|?]; [left; apply elem_of_app; by left|by right].
Qed.
Lemma step_own' : hp = true -> 0 ∉ f_bye s' -> selfw (f_cm s') (ev ++ e) /\ (EEscalate ∈ ev ++ e -> pleads s' (ev ++ e)).
Proof.
  intros Hp Hb'. assert (Hb : 0 ∉ f_bye s). { intros Hb. apply Hb'. by eapply bye_sub. }
  destruct (x_own _ _ Hx Hp Hb) as [Hw Hpl]. pose proof (fi_rinv _ _ Hf Hb) as R.
  destruct (decide (5 <= rank (cm_state (f_cm s)))) as [Hr|Hr].
  { apply rank_kept in Hr. split; [intros i _ _; by right|intros _; right; by right]. }
  destruct (decide (ESelfShutdown ∈ ev ++ e)) as [Hss|Hss].
  { split; [intros i _ _; by left|intros _; right; by left]. }
  assert (Hss0 : ESelfShutdown ∉ ev) by (intros ?; apply Hss, elem_of_app; by left).
  pose proof H as Hsh. apply step_shape in Hsh as [fo ea co s1 s2 l P Hm Hs Hfi Hl|He So].
  - destruct (manage_eff fo ea co s1 s2 P Hm Hfi) as (Ha & Hst & E). subst s'. cbn [f_cm push set_q].
    assert (Hw1 : selfw (f_cm s1) ev) by (by destruct (pr_cm _ _ _ P) as [->|[y ->]]).
    assert (Hr1 : rank (cm_state (f_cm s1)) = rank (cm_state (f_cm s))) by (by destruct (pr_cm _ _ _ P) as [->|[y ->]]).
    assert (Hu1 : 0 ∉ cm_unsub (f_cm s1)). { intros Hu. assert (Hu' : 0 ∈ cm_unsub (f_cm s)) by (by destruct (pr_cm _ _ _ P) as [Heq|[y Heq]]; rewrite Heq in Hu). by apply (r_unsub _ _ _ R) in Hu' as [_ ?]. }
    assert (Hdec : co = OTrigger 0 \/ co <> OTrigger 0). { destruct co as [| | | | |a| | | | | | | | | | | |]; try (by right). destruct (decide (a = 0)) as [->|Hne]; [by left|right; congruence]. }
    destruct Hdec as [->|Hco].
    { destruct (self_plea _ _ Hp Ha Hw1 Hst) as [?|Hr2]; [done|]. rewrite Hr1 in Hr2. done. }
    split.
    + assert (Heq : shut0 (f_cm s2) = shut0 (f_cm s1)). { eapply shut0_step; [exact Hst| |exact Ha|done|lia]. destruct co; try done. intros ->. done. }
      intros i Hi Hn. unfold shut0 in Heq. rewrite Hi in Heq. destruct (cm_map (f_cm s1) !! 0) as [j|] eqn:Hj; [|done]. cbn in Heq. injection Heq as Heq.
      destruct (Hw1 j Hj) as [?|?]; [congruence|done|]. lia.
    + destruct (manage_keeps hp policy sync fo ea s1 co s2 e Hm) as (_ & Kin & _ & Ksh & _). intros Hee. left. apply infl_app. left. apply elem_of_app in Hee as [Hee|Hee]; [|left; by apply (Ksh _ Hee)].
      apply Kin. destruct (Hpl Hee) as [Hi|[?|?]]; [|done|done]. destruct Hi as [Hi|[d Hi]]; [|right; exists d; unfold upl in *; by rewrite (pr_up _ _ _ P)].
      left. destruct (pr_q _ _ _ P) as [->|(x & Heq & Hxe)]; [done|]. rewrite Heq in Hi. apply elem_of_cons in Hi as [Hi|?]; [|done]. by rewrite Hxe in Hco.
  - subst e. rewrite app_nil_r in *. destruct (so_cm _ _ So) as [M HM]. unfold pleads. rewrite HM. split; [done|]. intros Hee. destruct (Hpl Hee) as [Hi|[?|?]]; [left; by apply (so_trig _ _ So)|right; by left|right; by right].
Qed.
Lemma step_x : xinv s' (ev ++ e).
Proof.
  split.
  - intros c Hk Hc. apply elem_of_app. apply x_new in Hk as [Hk|Hk]; [left; by apply (x_known _ _ Hx)|by right].
  - intros c Hc. apply elem_of_app in Hc as [Hc|Hc].
    + apply x_kept; [by apply (x_created _ _ Hx)|]. by apply (h_next _ _ (ai_h _ _ _ (fi_all _ _ Hf))) in Hc as [? _].
    + destruct (x_fresh c Hc) as [Hs _]. by eapply state_known.
  - apply step_down.
  - apply step_left.
  - intros Hv. apply x_ph. apply elem_of_app in Hv as [Hv|Hv]; [left; by apply (x_vote _ _ Hx)|by right].
  - apply step_okay.
  - apply step_bad.
  - apply step_own'.
Qed.
End step.
End node.
