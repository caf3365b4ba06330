(** C75: who tells a supervisor which waits for its children to go on. *)
From stdpp Require Import base list gmap.
From Verif Require Import Base ChildMgrModel ChildMgrSpec ChildMgrProofs ChildMgrTrace ChildMgrFacts FamilyModel FamilySpec FamilySteps FamilyFold FamilyInv FamilyChild FamilyProofs FamilyInit TreeModel TreeSteps TreeInv TreeNode FamilyStartSpec.
Open Scope N_scope.

Section start.
Context (hp : bool) (policy : spolicy) (sync : bool).
Notation step := (cstep hp policy sync).
Notation fstep := (fstep hp policy sync).
Notation manage := (manage hp policy sync).

(** ** The list of the child manager *)
Definition entry (s : cstate) (a : N) (b : bool) : Prop := exists i, cm_map s !! a = Some i /\ ci_actor i = Some a /\ ci_initialized i = b.
Lemma entry_same s s' a b : cm_map s' = cm_map s -> entry s a b -> entry s' a b.
Proof. unfold entry. by intros ->. Qed.
Lemma entry_put s s' a b x j i : cm_map s' = <[x := j]> (cm_map s) -> cm_map s !! x = Some i -> ci_actor j = ci_actor i -> ci_initialized j = ci_initialized i ->
  entry s a b -> entry s' a b.
Proof.
  intros Hm Hx Ha Hi (k & Hk & Hka & Hkb). unfold entry. rewrite Hm. destruct (decide (x = a)) as [->|Hne].
  - rewrite lookup_insert. rewrite Hk in Hx. injection Hx as <-. exists j. split; [done|]. by rewrite Ha, Hi.
  - rewrite lookup_insert_ne by done. by exists k.
Qed.
Lemma entry_none s s' a b x j : cm_map s' = <[x := j]> (cm_map s) -> (forall i, cm_map s !! x = Some i -> ci_actor i = None) -> entry s a b -> entry s' a b.
Proof.
  intros Hm Hx (k & Hk & Hka & Hkb). unfold entry. rewrite Hm. destruct (decide (x = a)) as [->|Hne].
  - rewrite (Hx _ Hk) in Hka. done.
  - rewrite lookup_insert_ne by done. by exists k.
Qed.
Lemma remove_entry s x ask s' e a b : (forall j c, cm_map s !! x = Some j -> ci_actor j = Some c -> c = x) -> remove_child policy s x ask = Ok (s', e) -> entry s a b -> entry s' a b \/ removed a e.
Proof.
  intros Hv H He. unfold remove_child in H. destruct (cm_map s !! x) as [i|] eqn:Hi; [|done].
  set (p1 := (if bool_decide (cm_state s = AInitializing) && negb (ci_started i) then
        if bool_decide (policy = PShutdownFailed) then (s, self_shutdown s)
        else if cm_initreq s then (set_initreq s false, [EInitError]) else (s, [])
      else (s, []))) in H.
  assert (H1 : cm_map p1.1 = cm_map s) by (unfold p1; by repeat case_match).
  destruct p1 as [s1 e1]. cbn [fst snd] in H1. destruct (ci_actor i) as [d|] eqn:Hd; [|done]. assert (d = x) as -> by (by eapply Hv).
  destruct (cancel_kept s1 x) as (_ & Hk & _). rewrite H1 in Hk.
  match type of H with match ?p with _ => _ end = _ => set (p2 := p) in H end.
  assert (H2 : cm_map p2.1.1.1 = cm_map s).
  { unfold p2. destruct (_ && _); [|done]. destruct (next_spawn _ _ _ _) as [i' []]; done. }
  destruct p2 as [[[s3 e3] i3] er]. cbn [fst snd] in H2. inversion H; subst; clear H.
  destruct (decide (a = x)) as [->|Hne].
  - right. eexists _, _, _. apply elem_of_app. right. left.
  - left. destruct He as (k & Hk1 & Hk2 & Hk3). exists k. split; [|done]. destruct er; cbn; rewrite H2.
    + by rewrite lookup_delete_ne.
    + by rewrite lookup_insert_ne.
Qed.
Lemma all_entry s a b : entry s a b -> entry (request_shutdown_all s).1 a b.
Proof.
  intros (k & Hk & Hka & Hkb). assert (E : cm_map (request_shutdown_all s).1 = ask_child <$> cm_map s).
  { unfold request_shutdown_all. cbn. f_equal. generalize (omap asked (map_to_list (cm_map s)).*2). intros l.
    assert (forall l s, cm_map (foldl cancel_init s l) = cm_map s) as ->; [|done]. clear. induction l as [|c l IH]; intros s; [done|]. cbn. rewrite IH. by destruct (cancel_init_eq s c) as [x ->]. }
  exists (ask_child k). rewrite E, lookup_fmap, Hk. split; [done|]. unfold ask_child. rewrite Hka. destruct (ci_shut k); done.
Qed.

(** An entry stays until its child is removed, and changes with the answer of the
    child only. *)
Lemma entry_step s o s' e a b : cinv s -> step s o = Ok (s', e) -> entry s a b ->
  removed a e \/ entry s' a b \/ (o = OOnInit a false /\ entry s' a true).
Proof.
  intros Hv H He. assert (Hkey : forall x i, x ∈ cm_spawnq s -> cm_map s !! x = Some i -> ci_actor i = None).
  { intros x i Hx Hi. destruct (v_q _ Hv x Hx) as (j & Hj & Hj' & _). congruence. }
  assert (Hfr : forall i, cm_map s !! cm_next s = Some i -> ci_actor i = None). { intros i Hi. apply (v_fresh _ Hv) in Hi. lia. }
  destruct o as [|cfg|x ok|x|x failed|x|x subs ask|x ask| | | |id|d| | |st|x ch|m ask];
    cbn -[create_child spawn on_spawn on_create on_init on_shutdown_trigger on_shutdown_confirm remove_child handle_shutdown handle_start on_spawn_timer deactivate] in H.
  - right. left. unfold create_child in H. injection H as <- <-. by eapply (entry_none s _ a b (cm_next s)).
  - right. left. unfold spawn in H. injection H as <- <-. by eapply (entry_none s _ a b (cm_next s)).
  - right. left. destruct (take_first x (cm_spawnq s)) as [q|] eqn:Hq; [|by injection H as <- <-]. apply take_first_in in Hq as [Hin _]. pose proof (Hkey x) as Hx.
    unfold on_spawn in H. cbn [cm_map set_spawnq cm_state cm_initreq cm_now] in H.
    destruct (cm_map s !! x) as [i|] eqn:Hi; [|done]. specialize (Hx i Hin eq_refl). destruct (negb _); [by injection H as <- <-|]. destruct (ok && _).
    + unfold create_child in H. injection H as <- <-. destruct He as (k & Hk & Hka & Hkb). exists k. cbn. assert (a <> x) by congruence.
      rewrite lookup_insert_ne by (apply (v_fresh _ Hv) in Hk; lia). by rewrite lookup_delete_ne.
    + assert (Hgo : forall t j, cm_map t = <[x := j]> (cm_map s) -> entry t a b) by (intros t j Ht; eapply entry_none; [exact Ht| |done]; congruence).
      repeat (case_match; simplify_eq; try done); unfold start_timer in *; simplify_eq; by eapply Hgo.
  - right. left. destruct (take_first x (cm_createq s)) as [q|]; [|by injection H as <- <-]. unfold on_create in H. cbn in H. destruct (cm_map s !! x); [|done]. by injection H as <- <-.
  - case_bool_decide; [|injection H as <- <-; by right; left]. unfold on_init in H. cbn [cm_map set_initout] in H. right.
    destruct failed; [left; repeat (case_match; simplify_eq; try done)|]. destruct (cm_map s !! x) as [i|] eqn:Hi; [|injection H as <- <-; by left].
    injection H as <- <-. destruct He as (k & Hk & Hka & Hkb). destruct (decide (a = x)) as [->|Hne].
    + right. split; [done|]. eexists. cbn. rewrite lookup_insert. split; [done|]. cbn. split; [|done]. congruence.
    + left. exists k. cbn. by rewrite lookup_insert_ne.
  - right. left. unfold on_shutdown_trigger in H. destruct (cm_map s !! x) as [i|] eqn:Hi; [|done]. unfold request_shutdown in H.
    destruct (ci_shut i) eqn:Hsh; [|by injection H as <- <-..]. destruct (ci_actor i) as [y|] eqn:Hy; [|done]. destruct (cancel_kept s y) as (_ & Hk & _).
    assert (Hput : forall t w, cm_map t = <[x := i_shut i w]> (cm_map s) -> entry t a b) by (intros t w Ht; by eapply entry_put).
    destruct (y =? 0); [|injection H as <- <-; eapply Hput; cbn; by rewrite Hk].
    destruct hp; [injection H as <- <-; eapply Hput; cbn; by rewrite Hk|]. case_bool_decide; [injection H as <- <-; eapply Hput; cbn; by rewrite Hk|].
    destruct (request_shutdown_all _) as [s3 e3] eqn:Hall. injection H as <- <-.
    assert (He3 : entry s3 a b). { change s3 with (s3, e3).1. rewrite <-Hall. apply all_entry. eapply Hput. cbn. by rewrite Hk. }
    assert (Hx3 : exists j, cm_map s3 !! x = Some j /\ ci_actor j = Some y /\ ci_initialized j = ci_initialized i).
    { assert (y = x) as -> by (by eapply v_key). change s3 with (s3, e3).1. rewrite <-Hall.
      refine (all_entry _ x (ci_initialized i) _). exists (i_shut i SConfirmed). cbn. rewrite lookup_insert. done. }
    destruct Hx3 as (j & Hj & Hja & Hji). eapply (entry_put s3 _ a b x (i_shut i SSent) j); [done|done|cbn; congruence|cbn; congruence|done].
  - case_bool_decide as Hb; [|injection H as <- <-; by right; left].
    unfold on_shutdown_confirm in H. cbn [cm_map set_shutout] in H. destruct (cm_map s !! x) as [i|] eqn:Hi; [|done].
    destruct (ci_actor i) eqn:Hy; [|done]. set (s0 := put_info (set_shutout s _) x (i_shut i SConfirmed)) in H.
    assert (He0 : entry s0 a b) by (by eapply (entry_put s s0 a b x (i_shut i SConfirmed) i)).
    destruct subs; [injection H as <- <-; right; left; exact He0|].
    destruct (remove_child _ _ _ _) as [[s2 e2]| |] eqn:Hr; try done. cbn in H. injection H as <- <-.
    assert (Hv0 : forall j c, cm_map s0 !! x = Some j -> ci_actor j = Some c -> c = x).
    { intros j c. cbn. rewrite lookup_insert. intros [= <-]. cbn. intros Hc. by eapply v_key. }
    destruct (remove_entry s0 x ask s2 e2 a b Hv0 Hr He0) as [?|(k & ab & ak & Hin)]; [by right; left|]. left. exists k, ab, ak. apply elem_of_app. by left.
  - case_bool_decide as Hb; [|injection H as <- <-; by right; left].
    destruct (remove_entry (set_unsub s (cm_unsub s ∖ {[x]})) x ask s' e a b) as [?|?]; try done; [|by right; left|by left]. intros j c H1 H2. by eapply (v_key _ Hv).
  - by right; left; injection H as <- <-.
  - right; left. case_bool_decide; [|by injection H as <- <-]. unfold handle_shutdown in H. destruct (cm_map s !! 0) as [i|] eqn:Hi; [|done].
    destruct (request_shutdown_all _) as [s3 e3] eqn:Hall. injection H as <- <-. change s3 with (s3, e3).1. rewrite <-Hall. apply all_entry. by eapply (entry_put s _ a b 0 (i_shut i SConfirmed) i).
  - right; left. case_bool_decide; [|by injection H as <- <-]. destruct (handle_start sync s) as [s1 e1] eqn:Hst. injection H as <- <-.
    change s1 with (s1, e1).1. rewrite <-Hst. unfold handle_start. destruct He as (k & Hk & Hka & Hkb). destruct sync; [|by exists k].
    eexists. cbn. rewrite map_lookup_imap, Hk. cbn. split; [done|]. by destruct (a =? 0).
  - right; left. destruct (cm_timers s !! id) as [d|]; [|by injection H as <- <-]. destruct (_ <=? _); [|by injection H as <- <-]. unfold on_spawn_timer in H.
    destruct (cm_spawning s !! id) as [key|]; [|done]. cbn [cm_map set_timing] in H. destruct (cm_map s !! key) as [i|] eqn:Hi; [|done].
    destruct (_ <=? _); injection H as <- <-; by eapply (entry_put s _ a b key (i_timer i 0) i).
  - by right; left; injection H as <- <-.
  - by right; left; injection H as <- <-.
  - right; left; injection H as <- <-. by case_bool_decide.
  - right; left. destruct (sup_moves _ _ _); by injection H as <- <-.
  - right; left. destruct (cm_children s !! x); [|by injection H as <- <-]. destruct (decide _); by injection H as <- <-.
  - case_bool_decide; [|injection H as <- <-; by right; left]. unfold deactivate in H. destruct (_ && _); [|injection H as <- <-; by right; left].
    destruct (remove_entry s 0 ask s' e a b) as [?|?]; try done; [|by right; left|by left]. intros j c H1 H2. by eapply (v_key _ Hv).
Qed.

(** ** Waiting for the children *)
Definition uninit (s : cstate) (a : N) : Prop := a <> 0 /\ entry s a false.
Definition kids (s : cstate) : Prop := forall a i, cm_map s !! a = Some i -> ci_actor i = Some a -> a <> 0 -> is_Some (cm_children s !! a).
Lemma waits_uninit s : (forall a i c, cm_map s !! a = Some i -> ci_actor i = Some c -> c = a) -> kids s -> has_initializing s = true ->
  exists a ch, uninit s a /\ cm_children s !! a = Some ch /\ rank (ch_state ch) <= 2.
Proof.
  intros Hv Hk Hi. unfold has_initializing in Hi. apply existsb_exists in Hi as ([a i] & Hin & Hi). apply elem_of_list_In, elem_of_map_to_list in Hin.
  unfold initializing in Hi. destruct (ci_actor i) as [c|] eqn:Ha; [|done]. assert (c = a) as -> by (by eapply Hv).
  destruct (N.eqb_spec a 0) as [|Ha0]; [by destruct (cm_children s !! a)|]. destruct (Hk a i Hin Ha Ha0) as [ch Hch]. rewrite Hch in Hi. cbn in Hi.
  apply andb_true_iff in Hi as [H1 H2]. apply N.leb_le in H1. apply negb_true_iff in H2. exists a, ch. split; [|done]. split; [done|]. by exists i.
Qed.
Lemma continues s : (forall a i c, cm_map s !! a = Some i -> ci_actor i = Some c -> c = a) -> kids s -> cm_state s = AInitializing -> cm_initreq s = true ->
  EInitContinue ∈ init_continue s \/ exists a, uninit s a.
Proof.
  intros Hv Hk Hs Hr. unfold init_continue. rewrite Hs, Hr. cbn. destruct (has_initializing s) eqn:Hi; [|left; left].
  right. destruct (waits_uninit s Hv Hk Hi) as (a & _ & Ha & _). by exists a.
Qed.
Definition told (s : cstate) (e : list cevent) : Prop := (cm_initreq s = true /\ exists a, uninit s a) \/ EInitContinue ∈ e \/ EInitError ∈ e.
Lemma remove_told s x ask s' e : (forall a i c, cm_map s !! a = Some i -> ci_actor i = Some c -> c = a) -> kids s -> remove_child policy s x ask = Ok (s', e) ->
  cm_state s = AInitializing -> cm_initreq s = true -> told s' e.
Proof.
  intros Hv Hkd H Hs Hq. unfold remove_child in H. destruct (cm_map s !! x) as [i|] eqn:Hi; [|done].
  set (p1 := (if bool_decide (cm_state s = AInitializing) && negb (ci_started i) then
        if bool_decide (policy = PShutdownFailed) then (s, self_shutdown s)
        else if cm_initreq s then (set_initreq s false, [EInitError]) else (s, [])
      else (s, []))) in H.
  assert (H1 : EInitError ∈ p1.2 \/ p1.1 = s). { unfold p1. rewrite Hq. destruct (_ && _); [|by right]. destruct (bool_decide (policy = PShutdownFailed)); [by right|left; left]. }
  destruct p1 as [s1 e1]. cbn [fst snd] in H1. destruct (ci_actor i) as [d|] eqn:Hd; [|done].
  destruct H1 as [H1| ->].
  { right. right. match type of H with match ?p with _ => _ end = _ => destruct p as [[[s3 e3] i3] er] end. injection H as _ <-. apply elem_of_app. by left. }
  destruct (cancel_kept s d) as (Kp & Hk & _). destruct (cancel_own s d) as [Ho1 Ho2]. set (s2 := cancel_init s d) in *.
  match type of H with match ?p with _ => _ end = _ => set (p2 := p) in H end.
  assert (H2 : cm_map p2.1.1.1 = cm_map s2 /\ cm_state p2.1.1.1 = cm_state s2 /\ cm_initreq p2.1.1.1 = cm_initreq s2 /\ cm_children p2.1.1.1 = cm_children s2).
  { unfold p2. destruct (_ && _); [|done]. destruct (next_spawn _ _ _ _) as [i' []]; done. }
  destruct p2 as [[[s3 e3] i3] er]. cbn [fst snd] in H2. destruct H2 as (M1 & M2 & M3 & M4). injection H as <- <-.
  set (s4 := if er then _ else _).
  assert (E4 : cm_state s4 = AInitializing /\ cm_initreq s4 = true /\ cm_children s4 = cm_children s /\
    forall a j c, cm_map s4 !! a = Some j -> ci_actor j = Some c -> cm_map s !! a = Some j).
  { unfold s4. destruct er; cbn; rewrite ?M1, ?M2, ?M3, ?M4, ?Hk, ?Ho1, ?Ho2, ?(kp_children _ _ Kp); split_and!; try done; intros a j c Ha Hc.
    - by apply lookup_delete_Some in Ha as [_ ?].
    - apply lookup_insert_Some in Ha as [[_ <-]|[_ ?]]; [|done]. done. }
  destruct E4 as (A1 & A2 & A3 & A4). unfold told. destruct (continues s4) as [Hc|Hc]; try done.
  - intros a j c Ha Hc. pose proof (A4 _ _ _ Ha Hc) as Hx. by eapply Hv.
  - intros a j Ha Hc Ha0. rewrite A3. eapply Hkd; [by eapply A4|done..].
  - right. left. apply elem_of_app. right. right. apply elem_of_app. right. apply elem_of_app. by right.
  - by left.
Qed.

Lemma told_step s o s' e : cinv s -> kids s -> step s o = Ok (s', e) -> cm_state s = AInitializing -> cm_state s' = AInitializing -> cm_initreq s = true ->
  (exists a, uninit s a) -> (forall a ch, o = OOnInit a false -> a <> 0 -> cm_children s !! a = Some ch -> 3 <= rank (ch_state ch)) ->
  match o with OChild _ _ => False | _ => True end -> told s' e.
Proof.
  intros Hv Hk H Hs Hs' Hq (a & Ha0 & Ha) Hup Hno. destruct (entry_step _ _ _ _ _ _ Hv H Ha) as [Hr|[He|[-> He]]].
  - (* the child is removed *)
    pose proof (ef_kind _ _ _ _ (step_eff hp policy sync _ _ _ _ Hv Hno H)) as Hkd. rewrite Forall_forall in Hkd. destruct Hr as (k & ab & ak & Hr).
    apply Hkd in Hr as [Hr _]. destruct Hr as [[-> Hx]|[[-> Hx]|[-> _]]]; [..|done]; cbn -[remove_child on_shutdown_confirm] in H; rewrite bool_decide_true in H by done.
    + unfold on_shutdown_confirm in H. cbn [cm_map set_shutout] in H. destruct (cm_map s !! a) as [i|] eqn:Hi; [|done].
      destruct (ci_actor i) eqn:Hy; [|done]. destruct (remove_child _ _ _ _) as [[s2 e2]| |] eqn:Hrm; try done. cbn in H. injection H as <- <-.
      apply remove_told in Hrm; [|..|done|done].
      * destruct Hrm as [?|[?|?]]; [by left|right; left; apply elem_of_app; by left|right; right; apply elem_of_app; by left].
      * intros y j c. cbn. intros Hj Hc. apply lookup_insert_Some in Hj as [[<- <-]|[_ Hj]]; by eapply (v_key _ Hv).
      * intros y j. cbn. intros Hj Hc. apply lookup_insert_Some in Hj as [[<- <-]|[_ Hj]]; by eapply Hk.
    + eapply remove_told; [| |exact H|done|done]; [|exact Hk]. intros y j c. apply (v_key _ Hv).
  - (* it stays *)
    destruct (decide (cm_initreq s' = true)) as [Hq'|Hq']; [left; split; [done|]; exists a; by split|right; right].
    destruct o as [|cfg|x ok|x|x failed|x|x subs ask|x ask| | | |id|d| | |st|x ch|m ask]; try done.
    all: try (apply step_own in H; [|by right|done]; destruct H as (_ & [[? _]|(_ & _ & _ & ?)] & _); [congruence|done]).
    + exfalso. apply Hq'. rewrite <-Hq. cbn in H. unfold on_shutdown_trigger in H. destruct (cm_map s !! x) as [i|]; [|done]. unfold request_shutdown in H.
      destruct (ci_shut i); [|by injection H as <- <-..]. destruct (ci_actor i) as [y|]; [|done]. destruct (cancel_own s y) as [K1 K2].
      destruct (y =? 0); [|injection H as <- <-; exact K2]. destruct hp; [injection H as <- <-; exact K2|]. destruct (bool_decide _); [injection H as <- <-; exact K2|].
      destruct (request_shutdown_all _) as [s3 e3] eqn:Hall. injection H as <- <-. destruct (all_own (set_state (put_info (cancel_init s y) x (i_shut i SConfirmed)) AShuttingDown)) as (_ & K & _).
      rewrite Hall in K. cbn in K. cbn. by rewrite K.
    + cbn in H. rewrite bool_decide_false in H by (by rewrite Hs). injection H as <- <-. done.
    + cbn in H. rewrite bool_decide_true in H by done. injection H as <- <-. done.
    + cbn in H. rewrite Hs in H. destruct st; cbn in H; try (injection H as <- <-; done); destruct hp; injection H as <- <-; done.
  - (* it has answered *)
    cbn in H. unfold on_init in H. case_bool_decide as Hb; [|injection H as <- <-; left; split; [done|]; exists a; by split]. cbn [negb andb] in H. set (s1 := set_initout s _) in H.
    destruct Ha as (i & Hi & Hia & Hib). change (cm_map s1 !! a) with (cm_map s !! a) in H. rewrite Hi in H. destruct (has_initializing s1) eqn:Hw; cbn [negb] in H.
    + left. injection H as <- <-. split; [done|]. destruct (waits_uninit s1) as (b & ch & [Hb0 (j & Hj & Hja & Hjb)] & Hch & Hr); [intros ???; apply (v_key _ Hv)|exact Hk|done|].
      exists b. split; [done|]. exists j. split_and!; try done. cbn. rewrite lookup_insert_ne; [done|]. intros <-. specialize (Hup a ch eq_refl Ha0 Hch). lia.
    + right. left. injection H as <- <-. set (s2 := put_info s1 a _). apply elem_of_cons. right. apply elem_of_app. right.
      unfold init_continue. change (cm_state s2) with (cm_state s). change (cm_initreq s2) with (cm_initreq s). rewrite Hs, Hq. cbn [negb andb].
      assert (Hw2 : has_initializing s2 = false); [|rewrite Hw2; left]. apply not_true_is_false. intros Hw2. apply not_true_iff_false in Hw. apply Hw.
      unfold has_initializing in *. apply existsb_exists in Hw2 as ([b j] & Hin & Hj). apply existsb_exists. apply elem_of_list_In, elem_of_map_to_list in Hin.
      unfold s2, put_info in Hin. cbn [cm_map set_map] in Hin. apply lookup_insert_Some in Hin as [[<- <-]|[Hne Hin]].
      * exfalso. unfold initializing in Hj. cbn [ci_actor i_flags ci_initialized] in Hj. rewrite Hia in Hj. destruct (cm_children s2 !! a) as [ch|] eqn:Hch.
        -- by rewrite andb_false_r in Hj.
        -- destruct (Hk a i Hi Hia Ha0) as [ch Hch']. change (cm_children s2) with (cm_children s) in Hch. congruence.
      * exists (b, j). split; [by apply elem_of_list_In, elem_of_map_to_list|exact Hj].
Qed.

(** ** The state of the supervisor *)
Lemma sup_back s o s' e : step s o = Ok (s', e) -> cm_state s <> ANew -> cm_state s' <> ANew /\ (cm_state s' = AInitializing -> cm_state s = AInitializing).
Proof.
  intros H Hn. assert (Hsame : cm_state s' = cm_state s -> cm_state s' <> ANew /\ (cm_state s' = AInitializing -> cm_state s = AInitializing)) by (intros ->; done).
  destruct o as [|cfg|x ok|x|x fl|x|x subs ask|x ask| | | |id|d| | |st|x ch|m ask].
  all: try (apply step_own in H; [|by right|done]; destruct H as (Hx & _); by apply Hsame).
  - cbn in H. unfold on_shutdown_trigger in H. destruct (cm_map s !! x) as [i|]; [|done]. unfold request_shutdown in H.
    destruct (ci_shut i); [|injection H as <- <-; by apply Hsame..]. destruct (ci_actor i) as [y|]; [|done]. destruct (cancel_own s y) as [K1 K2].
    destruct (y =? 0); [|injection H as <- <-; apply Hsame; exact K1]. destruct hp; [injection H as <- <-; apply Hsame; exact K1|].
    destruct (bool_decide _); [injection H as <- <-; apply Hsame; exact K1|].
    destruct (request_shutdown_all _) as [s3 e3] eqn:Hall. injection H as <- <-. destruct (all_own (set_state (put_info (cancel_init s y) x (i_shut i SConfirmed)) AShuttingDown)) as (K & _).
    rewrite Hall in K. cbn in K. cbn. rewrite K. done.
  - cbn in H. destruct (bool_decide _); [|injection H as <- <-; by apply Hsame]. destruct (handle_start _ _). injection H as <- <-. done.
  - cbn in H. injection H as <- <-. by destruct (bool_decide _); apply Hsame.
  - cbn in H. destruct (sup_moves hp (cm_state s) st) eqn:Hm; injection H as <- <-; [|by apply Hsame]. cbn. destruct (cm_state s), st; try done.
  - cbn in H. destruct (cm_children s !! x); [|injection H as <- <-; by apply Hsame]. destruct (decide _); injection H as <- <-; by apply Hsame.
Qed.
Lemma fsup_back s o s' e : fstep s o = Ok (s', e) -> cm_state (f_cm s) <> ANew ->
  cm_state (f_cm s') <> ANew /\ (cm_state (f_cm s') = AInitializing -> cm_state (f_cm s) = AInitializing).
Proof.
  intros H Hn. apply step_shape in H as [fo ea co s1 s2 l P Hm -> _ _|_ So].
  - destruct (manage_keeps hp policy sync fo ea s1 co s2 e Hm) as (_ & _ & _ & _ & Hst). assert (E : cm_state (f_cm s1) = cm_state (f_cm s)) by (by destruct (pr_cm _ _ _ P) as [->|[x ->]]).
    apply sup_back in Hst; [|congruence]. rewrite <-E. exact Hst.
  - destruct (so_cm _ _ So) as [M ->]. done.
Qed.

(** ** What is known of the children *)
Record oinv (s : fstate) (ev : list cevent) : Prop := {
  o_known : forall c, known s c -> c <> 0 -> ECreated c ∈ ev;
  o_created : forall c, ECreated c ∈ ev -> known s c;
  o_ok : forall c, c <> 0 -> infl s (MInitResp c false) \/ EInitOk c ∈ ev -> up3 s c;
  o_ent : forall c b, c <> 0 -> EInitOk c ∈ ev -> entry (f_cm s) c b -> b = true;
  o_new : forall c, c <> 0 -> state_of s c <> Some ANew
}.
Lemma oinv_init : oinv (finit hp) [].
Proof.
  assert (Hk : forall c, c <> 0 -> cm_children (f_cm (finit hp)) !! c = None) by (intros c Hc; cbn; by rewrite lookup_singleton_ne).
  assert (Hi : forall m, infl (finit hp) m -> m = MInitReq 0).
  { intros m [Hx|[c Hx]]; [|cbn in Hx; by apply elem_of_nil in Hx]. cbn in Hx. revert Hx. generalize hp. intros b Hx. destruct b; [by apply elem_of_nil in Hx|]. by apply elem_of_list_singleton in Hx. }
  split.
  - intros c [x Hx] Hc. by rewrite Hk in Hx.
  - intros c Hc. by apply elem_of_nil in Hc.
  - intros c Hc [Hx|Hx]; [by apply Hi in Hx|by apply elem_of_nil in Hx].
  - intros c b _ Hx. by apply elem_of_nil in Hx.
  - intros c Hc. unfold state_of. by rewrite Hk.
Qed.
Lemma oknown_lt s ev c : finv s ev -> oinv s ev -> known s c -> c < cm_next (f_cm s).
Proof.
  intros Hf Hx Hk. destruct (decide (c = 0)) as [->|Hc]; [pose proof (v_next _ (ai_c _ _ _ (fi_all _ _ Hf))); lia|].
  by apply (h_next _ _ (ai_h _ _ _ (fi_all _ _ Hf)) c), (o_known _ _ Hx).
Qed.
Lemma inited_entry s c s' e i : step s (OOnInit c false) = Ok (s', e) -> EInitOk c ∈ e -> cm_map s' !! c = Some i -> ci_initialized i = true.
Proof.
  intros H He Hi. cbn in H. destruct (bool_decide _); [|injection H as <- <-; by apply elem_of_nil in He]. unfold on_init in H. cbn [negb andb] in H. set (s1 := set_initout s _) in H.
  change (cm_map s1 !! c) with (cm_map s !! c) in H. destruct (cm_map s !! c) as [j|]; injection H as <- <-.
  - cbn in Hi. rewrite lookup_insert in Hi. by injection Hi as <-.
  - destruct (negb (has_initializing s1)); [apply init_cont_in in He; done|by apply elem_of_nil in He].
Qed.
Lemma step_o s ev o s' e : finv s ev -> finv s' (ev ++ e) -> oinv s ev -> fstep s o = Ok (s', e) -> oinv s' (ev ++ e).
Proof.
  intros Hf Hf' Hx H.
  assert (Hold : forall c, known s c -> c <> 0 -> cm_children (f_cm s') !! c = after s o c).
  { intros c Hk Hc. eapply step_child; [apply Hf|exact H| |done]. by eapply oknown_lt. }
  assert (Hkept : forall c, known s c -> c <> 0 -> known s' c).
  { intros c Hk Hc. unfold known. rewrite Hold by done. unfold after. by destruct Hk as [x ->]. }
  assert (Hup : forall c, c <> 0 -> up3 s c -> up3 s' c).
  { intros c Hc Hu. pose proof H as Hsh. apply step_shape in Hsh as [fo ea co s1 s2 l P Hm Hs Hfi Hl|He So]; [|by apply So].
    destruct (manage_eff hp policy sync s ev o e Hf fo ea co s1 s2 P Hm Hfi) as (Ha & Hst & E). destruct Hu as (st & Hu & Hr). exists st. split; [|done]. rewrite <-Hu.
    apply state_known in Hu. assert (Hn : ECreated c ∉ e). { intros Hn. pose proof (ef_kind _ _ _ _ E) as Hk. rewrite Forall_forall in Hk. apply Hk in Hn as [Hn _].
      pose proof (oknown_lt _ _ _ Hf Hx Hu). destruct (pr_cm _ _ _ P) as [Heq|[y Heq]]; rewrite Heq in Hn; cbn in Hn; lia. }
    subst s'. unfold state_of. cbn. rewrite (ef_old _ _ _ _ E c Hn). by destruct (pr_cm _ _ _ P) as [->|[y ->]]. }
  assert (Hok : forall c, c <> 0 -> infl s' (MInitResp c false) \/ EInitOk c ∈ ev ++ e -> (infl s (MInitResp c false) \/ EInitOk c ∈ ev) \/ up3 s' c).
  { intros c Hc Hi. pose proof H as Hsh. apply step_shape in Hsh as [fo ea co s1 s2 l P Hm Hs Hfi Hl|He So].
    - assert (Hs1 : forall m, infl s1 m -> infl s m).
      { intros m [Hq|[d Hq]]; [|right; exists d; unfold upl in *; by rewrite (pr_up _ _ _ P) in Hq]. left. destruct (pr_q _ _ _ P) as [Heq|(x & Heq & _)]; [by rewrite Heq in Hq|]. rewrite Heq. by right. }
      destruct Hi as [Hi|Hi].
      + subst s'. apply infl_app in Hi as [Hi|Hi]; [|apply Hl in Hi as [_ Hi]; exfalso; by eapply Hc, Hi].
        apply (manage_new _ _ _ _ _ _ _ _ _ _ Hm) in Hi as [Hi|[[? _]|[? _]]]; [|done|done|right; by exists c]. left. left. by apply Hs1.
      + apply elem_of_app in Hi as [Hi|Hi]; [by left; right|]. destruct (manage_eff hp policy sync s ev o e Hf fo ea co s1 s2 P Hm Hfi) as (Ha & Hst & E).
        pose proof (ok_ops _ _ _ _ _ _ _ _ Hst Hi) as ->. cbn in Hfi. left. left. left. by apply Hfi.
    - subst e. rewrite app_nil_r in Hi. destruct Hi as [Hi|Hi]; [|by left; right]. apply (so_ok _ _ So) in Hi as [?|?]; [by left; left|by right]. }
  assert (Hnew : forall c, known s' c -> known s c \/ ECreated c ∈ e).
  { intros c. pose proof H as Hsh. apply step_shape in Hsh as [fo ea co s1 s2 l P Hm Hs Hfi Hl|He So]; [|intros Hk; left; by apply So].
    destruct (manage_eff hp policy sync s ev o e Hf fo ea co s1 s2 P Hm Hfi) as (_ & _ & E). intros Hk. destruct (decide (ECreated c ∈ e)) as [?|Hn]; [by right|left].
    subst s'. unfold known in *. cbn in Hk. rewrite (ef_old _ _ _ _ E c Hn) in Hk. destruct (pr_cm _ _ _ P) as [Heq|[y Heq]]; by rewrite Heq in Hk. }
  assert (Hfresh : forall c, ECreated c ∈ e -> state_of s' c = Some AInitializing).
  { intros c Hc. pose proof H as Hsh. apply step_shape in Hsh as [fo ea co s1 s2 l P Hm Hs Hfi Hl|He So]; [|subst e; by apply elem_of_nil in Hc].
    destruct (manage_eff hp policy sync s ev o e Hf fo ea co s1 s2 P Hm Hfi) as (_ & _ & E). subst s'. unfold state_of. cbn. by rewrite (ef_new _ _ _ _ E c Hc). }
  split.
  - intros c Hk Hc. apply elem_of_app. destruct (Hnew c Hk) as [Hk'|Hk']; [left; by apply (o_known _ _ Hx)|by right].
  - intros c Hc. apply elem_of_app in Hc as [Hc|Hc].
    + apply Hkept; [by apply (o_created _ _ Hx)|]. by apply (h_next _ _ (ai_h _ _ _ (fi_all _ _ Hf))) in Hc as [? _].
    + by eapply state_known, Hfresh.
  - intros c Hc Hi. destruct (Hok c Hc Hi) as [Hi'|?]; [|done]. apply Hup; [done|]. by apply (o_ok _ _ Hx).
  - intros c b Hc Hi He. pose proof H as Hsh. apply step_shape in Hsh as [fo ea co s1 s2 l P Hm Hs Hfi Hl|He0 So].
    + destruct (manage_eff hp policy sync s ev o e Hf fo ea co s1 s2 P Hm Hfi) as (Ha & Hst & E).
      assert (Hi' : infl s (MInitResp c false) \/ EInitOk c ∈ ev).
      { apply elem_of_app in Hi as [Hi|Hi]; [by right|]. pose proof (ok_ops _ _ _ _ _ _ _ _ Hst Hi) as ->. left. left. by apply Hfi. }
      assert (Hcr : ECreated c ∈ ev). { destruct (o_ok _ _ Hx c Hc Hi') as (st & Hst' & _). apply (o_known _ _ Hx); [by eapply state_known|done]. }
      assert (Hnr : ~ removed c (ev ++ e)). { intros Hr. destruct (h_removed _ _ (ai_h _ _ _ (fi_all _ _ Hf')) c Hr) as [_ Hn]. destruct He as (i & Hi1 & Hi2 & _). by rewrite (Hn i Hi1) in Hi2. }
      subst s'. cbn [f_cm push set_q] in He. apply elem_of_app in Hi as [Hi|Hi].
      * destruct (h_live _ _ (ai_h _ _ _ (fi_all _ _ Hf)) c Hcr) as [(i & Hi1 & Hi2)|Hr]; [|exfalso; apply Hnr; apply removed_app; by left].
        assert (Hb0 : entry (f_cm s) c (ci_initialized i)) by (by exists i). pose proof (o_ent _ _ Hx c _ Hc Hi Hb0) as Hb. rewrite Hb in Hb0.
        assert (Hb1 : entry (f_cm s1) c true) by (eapply entry_same; [|exact Hb0]; by destruct (pr_cm _ _ _ P) as [->|[y ->]]).
        assert (Ht : entry (f_cm s2) c true). { destruct (entry_step _ _ _ _ _ _ (ai_c _ _ _ Ha) Hst Hb1) as [Hr|[?|[_ ?]]]; [|done|done]. exfalso. apply Hnr, removed_app. by right. }
        destruct He as (j & J1 & _ & <-), Ht as (k & K1 & _ & K2). congruence.
      * pose proof (ok_ops _ _ _ _ _ _ _ _ Hst Hi) as ->. destruct He as (j & J1 & _ & <-). by eapply inited_entry.
    + subst e. rewrite app_nil_r in Hi. eapply (o_ent _ _ Hx c b Hc Hi). eapply entry_same; [|exact He]. by destruct (so_cm _ _ So) as [M ->].
  - intros c Hc Hst. destruct (Hnew c) as [Hk|Hk]; [by eapply state_known| |apply Hfresh in Hk; congruence].
    unfold state_of in Hst. rewrite (Hold c Hk Hc) in Hst. unfold after in Hst. destruct (cm_children (f_cm s) !! c) as [ch|] eqn:Hch; [|done]. cbn -[downcall] in Hst. injection Hst as Hst.
    apply (o_new _ _ Hx c Hc). unfold state_of. rewrite Hch. cbn. f_equal.
    destruct o; try exact Hst.
    + destruct (downcall _ _) as [[d []]|]; try exact Hst; destruct (d =? c); by try exact Hst.
    + destruct (downcall _ _) as [[d []]|]; try exact Hst; destruct (d =? c); by try exact Hst.
    + destruct (_ && _); [|exact Hst]. by destruct failed.
    + destruct (_ && _); [done|exact Hst].
    + destruct (_ && _); [done|exact Hst].
Qed.

(** ** A run of the family *)
Definition oall (s : fstate) (ev : list cevent) : Prop := finv s ev /\ oinv s ev /\ cm_state (f_cm s) <> ANew.
Lemma step_oall s ev o s' e : oall s ev -> orderly s o -> fstep s o = Ok (s', e) -> oall s' (ev ++ e).
Proof.
  intros (Hf & Ho & Hn) Hor H. destruct (step_fin hp policy sync s ev o Hf Hor) as (s2 & e2 & H2 & Hf2). rewrite H in H2. injection H2 as <- <-.
  split; [done|]. split; [by eapply step_o|]. by apply fsup_back in H as [? _].
Qed.
Lemma fam_oall ops s ev : guarded fstep orderly (finit hp) ops -> run fstep (finit hp) ops = Ok (s, ev) -> oall s ev.
Proof.
  intros Hg H. refine (run_inv_ev fstep orderly oall _ ops (finit hp) [] s ev _ Hg H).
  - intros s0 ev0 o s1 e1 Ha Ho Hs. by eapply step_oall.
  - split; [apply finv_init|]. split; [apply oinv_init|done].
Qed.
Lemma okids s ev : oall s ev -> kids (f_cm s).
Proof.
  intros (Hf & Ho & _) a i Hi Ha Ha0. apply (o_created _ _ Ho), (h_created _ _ (ai_h _ _ _ (fi_all _ _ Hf)) a i); done.
Qed.
Lemma okey s ev : oall s ev -> forall a i c, cm_map (f_cm s) !! a = Some i -> ci_actor i = Some c -> c = a.
Proof. intros (Hf & _ & _). apply (v_key _ (ai_c _ _ _ (fi_all _ _ Hf))). Qed.

(** When the last child which has not answered leaves the list or answers, the
    supervisor goes on. *)
Lemma told_fstep s ev o s' e : oall s ev -> fstep s o = Ok (s', e) -> cm_state (f_cm s) = AInitializing -> cm_state (f_cm s') = AInitializing ->
  cm_initreq (f_cm s) = true -> (exists a, uninit (f_cm s) a) -> told (f_cm s') e.
Proof.
  intros Ha H Hs Hs' Hq Hu. pose proof Ha as (Hf & Ho & _). pose proof (okids _ _ Ha) as Hk.
  pose proof H as Hsh. apply step_shape in Hsh as [fo ea co s1 s2 l P Hm He Hfi Hl|He So].
  - destruct (manage_eff hp policy sync s ev o e Hf fo ea co s1 s2 P Hm Hfi) as (Ha1 & Hst & E). subst s'. cbn [f_cm push set_q] in *.
    assert (Hc : cm_map (f_cm s1) = cm_map (f_cm s) /\ cm_state (f_cm s1) = cm_state (f_cm s) /\ cm_initreq (f_cm s1) = cm_initreq (f_cm s) /\ cm_children (f_cm s1) = cm_children (f_cm s)).
    { by destruct (pr_cm _ _ _ P) as [->|[y ->]]. }
    destruct Hc as (C1 & C2 & C3 & C4). eapply told_step; [apply Ha1| |exact Hst|congruence|done|congruence|..].
    + unfold kids. rewrite C1, C4. exact Hk.
    + destruct Hu as (a & Ha0 & Hu). exists a. split; [done|]. by eapply entry_same.
    + intros a ch -> Ha0 Hch. cbn in Hfi. assert (Hi : MInitResp a false ∈ f_q s) by (by apply Hfi). destruct (o_ok _ _ Ho a Ha0) as (st & Hst' & Hr); [by left; left|].
      unfold state_of in Hst'. rewrite <-C4, Hch in Hst'. cbn in Hst'. by injection Hst' as ->.
    + by destruct co.
  - left. destruct (so_cm _ _ So) as [M E]. rewrite E. split; [done|]. destruct Hu as (a & Ha0 & Hu). exists a. by split.
Qed.
Lemma told_run ops : forall s ev s' e e0, oall s ev -> guarded fstep orderly s ops -> run fstep s ops = Ok (s', e) ->
  (cm_state (f_cm s) = AInitializing -> told (f_cm s) e0) -> cm_state (f_cm s') = AInitializing -> told (f_cm s') (e0 ++ e).
Proof.
  induction ops as [|o ops IH]; intros s ev s' e e0 Ha Hg Hr Ht Hs; cbn in Hg, Hr; [injection Hr as <- <-; rewrite app_nil_r; by apply Ht|].
  destruct Hg as [Hok Hg]. destruct (fstep s o) as [[s1 e1]| |] eqn:H1; try done. cbn in Hr, Hg. destruct (run fstep s1 ops) as [[s2 e2]| |] eqn:H2; try done. cbn in Hr. injection Hr as <- <-.
  rewrite (assoc_L (++)). apply (IH s1 (ev ++ e1) s2 e2 (e0 ++ e1)); try done; [by eapply step_oall|].
  intros Hs1. assert (Hs0 : cm_state (f_cm s) = AInitializing) by (destruct Ha as (_ & _ & Hn); by eapply fsup_back in H1 as [_ Hb]; [apply Hb|]).
  destruct (Ht Hs0) as [[Hq Hu]|[Hc|Hc]].
  - destruct (told_fstep s ev o s1 e1 Ha H1 Hs0 Hs1 Hq Hu) as [?|[?|?]]; [by left|right; left|right; right]; apply elem_of_app; by right.
  - right. left. apply elem_of_app. by left.
  - right. right. apply elem_of_app. by left.
Qed.

(** Nothing is under way: what an unanswered init request waits for. *)
Lemma settled_uninit ops s ev c : guarded fstep orderly (finit hp) ops -> run fstep (finit hp) ops = Ok (s, ev) -> settled s -> rank (cm_state (f_cm s)) < 5 -> uninit (f_cm s) c ->
  listed c ev /\ (failed ev \/ busy s c \/ leaving s c).
Proof.
  intros Hg Hr Hs Hst (Hc0 & i & Hi & Hia & Hib). destruct (fam_oall ops s ev Hg Hr) as (Hf & Ho & _).
  assert (Hcr : ECreated c ∈ ev) by (eapply (h_created _ _ (ai_h _ _ _ (fi_all _ _ Hf))); [exact Hi|done|by rewrite Hia]).
  assert (Hnr : ~ removed c ev). { intros Hx. destruct (h_removed _ _ (ai_h _ _ _ (fi_all _ _ Hf)) c Hx) as [_ Hn]. by rewrite (Hn i Hi) in Hia. }
  split. { split; [done|]. intros k abn ask Hx. apply Hnr. by exists k, abn, ask. }
  destruct (decide (EShutReq c ∈ ev)) as [Ha|Ha].
  - right. right. pose proof (proj1 (fam_asked hp policy sync ops s ev c Hg Hr Hs Hcr) Ha) as (st & Hx & [->| ->]); [done|].
    exfalso. apply Hnr. by apply (fam_removed hp policy sync ops s ev c Hg Hr Hs Hcr).
  - destruct (fam_init hp policy sync ops s ev c Hg Hr Hs Hcr Ha) as [_ [Hx|[Hx|[Hx|[Hx Hy]]]]].
    + assert (Hb : false = true); [|done]. eapply (o_ent _ _ Ho c false Hc0 Hx). by exists i.
    + left. by left.
    + left. by right.
    + right. left. split; [done|]. destruct Hy as [?|[_ ?]]; [done|lia].
Qed.

Lemma fam_told ops1 ops2 s1 ev1 s2 ev2 : guarded fstep orderly (finit hp) (ops1 ++ ops2) -> run fstep (finit hp) ops1 = Ok (s1, ev1) -> run fstep s1 ops2 = Ok (s2, ev2) ->
  waiting (f_cm s1) -> settled s2 -> cm_state (f_cm s2) = AInitializing ->
  EInitContinue ∈ ev2 \/ failed (ev1 ++ ev2) \/ (cm_initreq (f_cm s2) = true /\ exists c, listed c (ev1 ++ ev2) /\ (busy s2 c \/ leaving s2 c)).
Proof.
  intros Hg H1 H2 (W1 & W2 & W3) Hs Hi. destruct (guarded_split hp policy sync ops1 _ ops2 s1 ev1 Hg H1) as [Hg1 Hg2]. pose proof (fam_oall _ _ _ Hg1 H1) as Ha.
  assert (Hr : run fstep (finit hp) (ops1 ++ ops2) = Ok (s2, ev1 ++ ev2)) by (rewrite run_app, H1; cbn; by rewrite H2).
  assert (Ht : told (f_cm s2) ([] ++ ev2)).
  { eapply (told_run ops2 s1 ev1); try done. intros _. left. split; [done|]. destruct (waits_uninit (f_cm s1)) as (a & ch & Hu & _); [by eapply okey|by eapply okids|done|by exists a]. }
  destruct Ht as [[Hq [c Hc]]|[Ht|Ht]]; [|by left|right; left; left; apply elem_of_app; by right].
  destruct (settled_uninit _ _ _ c Hg Hr Hs) as [Hl [Hx|Hx]]; [rewrite Hi; done|done|by right; left|right; right; split; [done|]; by exists c].
Qed.
End start.
