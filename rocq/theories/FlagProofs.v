From stdpp Require Import base list gmap.
From Verif Require Import Base FlagModel FlagSpec.

(** The poll timer is described by an optional identifier. *)
Definition unique_poll (m : gmap N tk) (o : option N) : Prop := forall id, m !! id = Some KPoll <-> o = Some id.

Record finv (s : fstate) (ev : list fevent) (o : option N) : Prop := FInv {
  v_poll : unique_poll (f_timers s) o;
  v_ids : forall id k, f_timers s !! id = Some k -> (id <= f_last s)%N;
  v_none : f_state s = SShutDown -> o = None;
  v_init : f_state s = SInit -> polls ev = [] /\ o = None;
  v_flag : f_flag s = false -> o = None /\ polls ev = [];
  v_polls : exists n, polls ev = replicate n false ++ (if seen ev then [true] else []);
  v_seen : seen ev = true -> o = None;
  v_arm : f_flag s = true -> f_state s = SOperational -> seen ev = false -> is_Some o;
  v_trig : count is_trigger ev <= (if seen ev then 1 else 0);
  v_trig1 : f_state s = SOperational -> seen ev = true -> count is_trigger ev = 1
}.

Lemma unique_poll_init : unique_poll ∅ None.
Proof. intros id. rewrite lookup_empty. split; intros H; discriminate. Qed.

Lemma finv_init b : finv (finit b) [] None.
Proof.
  split; simpl; try done.
  by exists 0.
Qed.

Lemma polls_app a b : polls (a ++ b) = polls a ++ polls b.
Proof. induction a as [|[] a IH]; simpl; try done. by rewrite IH. Qed.
Lemma seen_app a b : seen (a ++ b) = seen a || seen b.
Proof. unfold seen. rewrite polls_app. apply existsb_app. Qed.
Lemma count_app p a b : count p (a ++ b) = count p a + count p b.
Proof. unfold count. rewrite <- app_length. f_equal. induction a as [|x a IH]; simpl; [done|]. destruct (p x); simpl; by rewrite IH. Qed.

Lemma no_poll_seen e : polls e = [] -> seen e = false.
Proof. unfold seen. by intros ->. Qed.

(** Events without polls and triggers do not matter. *)
Definition mute (e : list fevent) : Prop := polls e = [] /\ count is_trigger e = 0.
Lemma seen_mute ev e : mute e -> seen (ev ++ e) = seen ev.
Proof. intros [H _]. rewrite seen_app, (no_poll_seen e H). apply orb_false_r. Qed.
Lemma polls_mute ev e : mute e -> polls (ev ++ e) = polls ev.
Proof. intros [H _]. by rewrite polls_app, H, app_nil_r. Qed.
Lemma trig_mute ev e : mute e -> count is_trigger (ev ++ e) = count is_trigger ev.
Proof. intros [_ H]. rewrite count_app, H. lia. Qed.

Lemma finv_mute s ev o e : mute e -> finv s ev o -> finv s (ev ++ e) o.
Proof. intros Hm [H1 H2 H3 H4 H5 H6 H7 H8 H9 H10]. split; rewrite ?(seen_mute ev e Hm), ?(polls_mute ev e Hm), ?(trig_mute ev e Hm); done. Qed.

(** Changing timers other than the poll timer. *)
Lemma finv_timers s ev o m l : finv s ev o -> unique_poll m o -> (forall id k, m !! id = Some k -> (id <= l)%N) ->
  finv (FState (f_state s) (f_flag s) m l) ev o.
Proof. intros [H1 H2 H3 H4 H5 H6 H7 H8 H9 H10]. intros. split; done. Qed.

Lemma unique_poll_delete m o id : unique_poll m o -> unique_poll (delete id m) (if decide (o = Some id) then None else o).
Proof.
  intros H j. destruct (decide (o = Some id)) as [->|Hne].
  - split; [|done]. intros Hj. apply lookup_delete_Some in Hj as [Hn Hj]. apply H in Hj. congruence.
  - rewrite <- (H j). rewrite lookup_delete_Some. split; [tauto|]. intros Hj. split; [|done]. intros ->. apply H in Hj. done.
Qed.
Lemma unique_poll_user m o id : unique_poll m o -> m !! id = None -> unique_poll (<[id := KUser]> m) o.
Proof.
  intros H Hn j. rewrite <- (H j). destruct (decide (id = j)) as [<-|].
  - rewrite lookup_insert, Hn. split; discriminate.
  - by rewrite lookup_insert_ne.
Qed.

Lemma fresh s ev o : finv s ev o -> f_timers s !! N.succ (f_last s) = None.
Proof. intros HI. destruct (f_timers s !! N.succ (f_last s)) eqn:E; [|done]. apply (v_ids _ _ _ HI) in E. lia. Qed.

(** Cancelling any timer: nothing is armed, no poll. *)
Lemma cancel_one s ev o id s' e : finv s ev o -> on_timer_trigger s id true false = (s', e) ->
  s' = FState (f_state s) (f_flag s) (delete id (f_timers s)) (f_last s) /\ mute e.
Proof.
  intros HI. unfold on_timer_trigger. destruct (f_timers s !! id) as [[|]|] eqn:E; simpl; intros H; inversion H; subst; clear H.
  - by split.
  - by split.
  - split; [|by split]. rewrite delete_notin by done. by destruct s'.
Qed.

Lemma cancel_all_spec ids : forall s s' e, cancel_all s ids = (s', e) ->
  s' = FState (f_state s) (f_flag s) (foldl (fun m i => delete i m) (f_timers s) ids) (f_last s) /\ mute e.
Proof.
  induction ids as [|id ids IH]; intros s s' e H; simpl in H.
  - inversion H; subst. split; [by destruct s'|by split].
  - destruct (on_timer_trigger s id true false) as [s1 e1] eqn:E1. destruct (cancel_all s1 ids) as [s2 e2] eqn:E2.
    inversion H; subst; clear H. apply IH in E2 as [-> [Hm1 Hm2]].
    assert (E : s1 = FState (f_state s) (f_flag s) (delete id (f_timers s)) (f_last s) /\ mute e1).
    { revert E1. unfold on_timer_trigger. destruct (f_timers s !! id) as [[|]|] eqn:E; simpl; intros H; inversion H; subst; clear H.
      - by split.
      - by split.
      - split; [|by split]. rewrite delete_notin by done. by destruct s1. }
    destruct E as [-> [Hm3 Hm4]]. split; [done|]. split.
    + by rewrite polls_app, Hm3, Hm1.
    + by rewrite count_app, Hm4, Hm2.
Qed.

Lemma foldl_delete_all (m m' : gmap N tk) : (forall i, m' !! i = None \/ i ∈ map fst (map_to_list m)) ->
  foldl (fun m i => delete i m) m' (map fst (map_to_list m)) = ∅.
Proof.
  generalize (map fst (map_to_list m)). intros l. revert m'. induction l as [|x l IH]; intros m' H; simpl.
  - apply map_empty. intros i. destruct (H i) as [|Hi]; [done|]. by apply elem_of_nil in Hi.
  - apply IH. intros i. destruct (decide (x = i)) as [<-|]; [left; apply lookup_delete|].
    rewrite lookup_delete_ne by done. destruct (H i) as [|Hi]; [by left|]. right. apply elem_of_cons in Hi as [|]; [congruence|done].
Qed.
Lemma cancel_map_empty (m : gmap N tk) : foldl (fun m i => delete i m) m (map fst (map_to_list m)) = ∅.
Proof.
  apply foldl_delete_all. intros i. destruct (m !! i) as [k|] eqn:E; [right|by left].
  apply elem_of_list_fmap. exists (i, k). split; [done|]. by apply elem_of_map_to_list.
Qed.

Lemma finv_step s ev o op s' e : finv s ev o -> fstep s op = Ok (s', e) -> exists o', finv s' (ev ++ e) o'.
Proof.
  intros HI Hs. destruct op as [|id flag| |id| |]; simpl in Hs.
  - (* start *)
    destruct (f_state s) eqn:Est; try (inversion Hs; subst; rewrite app_nil_r; by exists o).
    destruct (v_init _ _ _ HI Est) as [Hp Ho].
    assert (Hse : seen ev = false) by by apply no_poll_seen.
    assert (Htr : count is_trigger ev = 0) by (pose proof (v_trig _ _ _ HI) as H; rewrite Hse in H; lia).
    destruct (f_flag s) eqn:Ef; inversion Hs; subst; clear Hs.
    + exists (Some (N.succ (f_last s))).
      assert (Hm : mute [EArm (N.succ (f_last s))]) by by split.
      split; simpl; rewrite ?(seen_mute _ _ Hm), ?(polls_mute _ _ Hm), ?(trig_mute _ _ Hm), ?Hp, ?Hse, ?Htr; try done.
      * intros j. split.
        -- intros H. apply lookup_insert_Some in H as [[<- _]|[_ H]]; [done|]. apply (v_poll _ _ _ HI) in H. congruence.
        -- intros H. inversion H; subst. by rewrite lookup_insert.
      * intros j k H. apply lookup_insert_Some in H as [[<- _]|[_ H]]; [lia|]. apply (v_ids _ _ _ HI) in H. lia.
      * by exists 0.
    + exists None. rewrite app_nil_r. destruct HI as [H1 H2 H3 H4 H5 H6 H7 H8 H9 H10]. split; simpl; try done.
      intros _ H. congruence.
  - (* fire *)
    unfold on_timer_trigger in Hs. destruct (f_timers s !! id) as [[|]|] eqn:E.
    + pose proof E as E'. apply (v_poll _ _ _ HI) in E' as ->.
      assert (Hse : seen ev = false) by (destruct (seen ev) eqn:Hx; [|done]; by apply (v_seen _ _ _ HI) in Hx).
      assert (Htr : count is_trigger ev = 0) by (pose proof (v_trig _ _ _ HI) as H; rewrite Hse in H; lia).
      assert (Hns : f_state s <> SShutDown) by (intros Hx; by apply (v_none _ _ _ HI) in Hx).
      assert (Hni : f_state s <> SInit) by (intros Hx; by apply (v_init _ _ _ HI) in Hx as [_ Hx]).
      assert (Hfl : f_flag s = true) by (destruct (f_flag s) eqn:Hx; [done|]; by apply (v_flag _ _ _ HI) in Hx as [Hx _]).
      destruct (v_polls _ _ _ HI) as [n Hn]. rewrite Hse, app_nil_r in Hn.
      destruct flag; simpl in Hs; inversion Hs; subst; clear Hs.
      * exists None.
        assert (Hd : exists k, do_shutdown s = replicate k ETrigger /\ k <= 1 /\ (f_state s = SOperational -> k = 1)).
        { unfold do_shutdown. destruct (f_state s); [by exists 1|by exists 1|exists 0|exists 0]; split; auto; split; auto; intros; discriminate. }
        destruct Hd as (k & Hd & Hk & Hk1). rewrite Hd.
        assert (Hpk : polls (replicate k ETrigger) = []) by (clear; induction k; simpl; done).
        assert (Hck : count is_trigger (replicate k ETrigger) = k) by (clear; unfold count; induction k; simpl; auto).
        assert (Hse' : seen (ev ++ EPoll true :: replicate k ETrigger) = true).
        { rewrite seen_app. unfold seen. simpl. by rewrite orb_true_r. }
        assert (Hct : count is_trigger (ev ++ EPoll true :: replicate k ETrigger) = k).
        { rewrite count_app, Htr. unfold count in *. simpl. by rewrite Hck. }
        split; simpl; rewrite ?Hse', ?Hct; try done; try congruence.
        -- pose proof (unique_poll_delete _ _ id (v_poll _ _ _ HI)) as H. by rewrite decide_True in H by done.
        -- intros j k' H. apply lookup_delete_Some in H as [_ H]. by apply (v_ids _ _ _ HI) in H.
        -- exists n. by rewrite polls_app, Hn; simpl; rewrite Hpk.
        -- intros H _. by apply Hk1.
      * set (i := N.succ (f_last s)).
        assert (Hi : id <> i) by (apply (v_ids _ _ _ HI) in E; unfold i; lia).
        exists (Some i).
        assert (Hse' : seen (ev ++ [EPoll false; EArm i]) = false) by (rewrite seen_app, Hse; done).
        assert (Hct : count is_trigger (ev ++ [EPoll false; EArm i]) = 0) by (rewrite count_app, Htr; done).
        split; simpl; rewrite ?Hse', ?Hct; try done; try congruence.
        -- intros j. split.
           ++ intros H. apply lookup_delete_Some in H as [Hn2 H]. apply lookup_insert_Some in H as [[<- _]|[_ H]]; [done|].
              apply (v_poll _ _ _ HI) in H. congruence.
           ++ intros H. inversion H; subst. rewrite lookup_delete_ne by done. by rewrite lookup_insert.
        -- intros j k H. apply lookup_delete_Some in H as [_ H]. apply lookup_insert_Some in H as [[<- _]|[_ H]]; [lia|].
           apply (v_ids _ _ _ HI) in H. unfold i. lia.
        -- exists (S n). rewrite polls_app, Hn. simpl. rewrite app_nil_r.
           change (false :: replicate n false) with (replicate (S n) false). by rewrite replicate_S_end.
    + inversion Hs; subst; clear Hs. exists o. apply finv_mute; [by split|]. apply finv_timers; [done|..].
      * pose proof (unique_poll_delete _ _ id (v_poll _ _ _ HI)) as H. rewrite decide_False in H; [done|].
        intros ->. pose proof (proj2 (v_poll _ _ _ HI id) eq_refl). congruence.
      * intros j k H. apply lookup_delete_Some in H as [_ H]. by apply (v_ids _ _ _ HI) in H.
    + inversion Hs; subst. rewrite app_nil_r. by exists o.
  - (* user start *)
    inversion Hs; subst; clear Hs. rewrite app_nil_r. exists o.
    apply finv_timers; [done|..].
    + apply unique_poll_user; [apply HI|by eapply fresh].
    + intros j k H. apply lookup_insert_Some in H as [[<- _]|[_ H]]; [lia|]. apply (v_ids _ _ _ HI) in H. lia.
  - (* user cancel *)
    destruct (f_timers s !! id) as [[|]|] eqn:E; try (inversion Hs; subst; rewrite app_nil_r; by exists o).
    assert (exists s1 e1, on_timer_trigger s id true false = (s1, e1)) as (s1 & e1 & E1) by (destruct (on_timer_trigger s id true false); by eexists _, _).
    rewrite E1 in Hs. inversion Hs; subst. destruct (cancel_one _ _ _ _ _ _ HI E1) as [-> Hm].
    exists o. apply finv_mute; [done|]. apply finv_timers; [done|..].
    + pose proof (unique_poll_delete _ _ id (v_poll _ _ _ HI)) as H. rewrite decide_False in H; [done|].
      intros ->. pose proof (proj2 (v_poll _ _ _ HI id) eq_refl). congruence.
    + intros j k H. apply lookup_delete_Some in H as [_ H]. by apply (v_ids _ _ _ HI) in H.
  - (* shutdown request *)
    exists o. destruct (f_state s) eqn:Est; inversion Hs; subst; rewrite app_nil_r; try done;
      destruct HI as [H1 H2 H3 H4 H5 H6 H7 H8 H9 H10]; split; simpl; try done.
  - (* finish *)
    destruct (f_state s) eqn:Est; try (inversion Hs; subst; rewrite app_nil_r; by exists o).
    destruct (cancel_all s (map fst (map_to_list (f_timers s)))) as [s1 e1] eqn:E1. inversion Hs; subst; clear Hs.
    apply cancel_all_spec in E1 as [-> Hm]. simpl. rewrite cancel_map_empty. exists None.
    apply finv_mute; [done|]. destruct HI as [H1 H2 H3 H4 H5 H6 H7 H8 H9 H10]. split; simpl; try done.
    intros H. by apply H5 in H as [_ H].
Qed.

Lemma finv_run ops : forall s ev o s' e, finv s ev o -> run fstep s ops = Ok (s', e) -> exists o', finv s' (ev ++ e) o'.
Proof.
  induction ops as [|op ops IH]; intros s ev o s' e HI Hr; simpl in Hr.
  - inversion Hr; subst. rewrite app_nil_r. by exists o.
  - destruct (fstep s op) as [[s1 e1]| |] eqn:E1; simpl in Hr; try done.
    destruct (run fstep s1 ops) as [[s2 e2]| |] eqn:E2; simpl in Hr; try done. inversion Hr; subst.
    destruct (finv_step _ _ _ _ _ _ HI E1) as [o1 HI1]. rewrite (assoc_L (++)). by eapply IH.
Qed.

Lemma poll_timers_unique s o : unique_poll (f_timers s) o -> poll_timers s = match o with Some i => [i] | None => [] end.
Proof.
  intros H. unfold poll_timers.
  assert (HE : forall i, i ∈ map fst (List.filter (fun p : N * tk => match p.2 with KPoll => true | _ => false end) (map_to_list (f_timers s))) <-> o = Some i).
  { intros i. rewrite <- (H i). rewrite elem_of_list_fmap. split.
    - intros ([j k] & -> & Hin). apply elem_of_list_In, filter_In in Hin as [Hin Hk]. simpl in *.
      apply elem_of_list_In, elem_of_map_to_list in Hin. by destruct k.
    - intros Hi. exists (i, KPoll). split; [done|]. apply elem_of_list_In, filter_In. split; [|done].
      apply elem_of_list_In. by apply elem_of_map_to_list. }
  assert (HN : NoDup (map fst (List.filter (fun p : N * tk => match p.2 with KPoll => true | _ => false end) (map_to_list (f_timers s))))).
  { pose proof (NoDup_fst_map_to_list (f_timers s)) as HN. revert HN. generalize (map_to_list (f_timers s)). clear.
    induction l as [|[j k] l IH]; intros HN; simpl; [constructor|]. csimpl in HN. apply NoDup_cons in HN as [H1 H2].
    destruct k; simpl; [|by apply IH]. apply NoDup_cons. split; [|by apply IH]. intros Hx. apply H1.
    apply elem_of_list_fmap in Hx as ([x y] & E & Hx). simpl in E. apply elem_of_list_In, filter_In in Hx as [Hx _].
    apply elem_of_list_In in Hx. apply elem_of_list_fmap. by exists (x, y). }
  revert HE HN. generalize (map fst (List.filter (fun p : N * tk => match p.2 with KPoll => true | _ => false end) (map_to_list (f_timers s)))).
  intros l HE HN. destruct o as [i|].
  - destruct l as [|x [|y l]].
    + pose proof (proj2 (HE i) eq_refl) as Hx. by apply elem_of_nil in Hx.
    + pose proof (proj1 (HE x) ltac:(left)). congruence.
    + exfalso. pose proof (proj1 (HE x) ltac:(left)). pose proof (proj1 (HE y) ltac:(right; left)).
      apply NoDup_cons in HN as [HN _]. apply HN. assert (x = y) as -> by congruence. left.
  - destruct l as [|x l]; [done|]. pose proof (proj1 (HE x) ltac:(left)). congruence.
Qed.

Section Reached.
  Context (b : bool) (ops : list fop) (s : fstate) (ev : list fevent).
  Hypothesis Hr : run fstep (finit b) ops = Ok (s, ev).

  Lemma flag_reach : exists o, finv s ev o.
  Proof. apply (finv_run _ _ [] None) in Hr; [done|apply finv_init]. Qed.

  Lemma flag_kept : f_flag s = b.
  Proof.
    assert (H : forall o s s' e, fstep s o = Ok (s', e) -> f_flag s' = f_flag s).
    { clear. intros o s s' e H.
      assert (HT : forall s id c f s' e, on_timer_trigger s id c f = (s', e) -> f_flag s' = f_flag s).
      { clear. intros s id c f s' e. unfold on_timer_trigger, on_shutdown_check_timer.
        destruct (f_timers s !! id) as [[|]|]; destruct c, f; simpl; intros H; by inversion H. }
      destruct o; simpl in H.
      - destruct (f_state s); [destruct (f_flag s) eqn:E|..]; inversion H; by subst.
      - destruct (on_timer_trigger _ _ _ _) eqn:E in H. inversion H; subst. by eapply HT.
      - by inversion H.
      - destruct (f_timers s !! id) as [[|]|]; [by inversion H| |by inversion H].
        destruct (on_timer_trigger _ _ _ _) eqn:E in H. inversion H; subst. by eapply HT.
      - destruct (f_state s); by inversion H.
      - destruct (f_state s); try by inversion H.
        destruct (cancel_all _ _) eqn:E in H. apply cancel_all_spec in E as [-> _]. by inversion H. }
    enough (HI : forall ops s s' e, run fstep s ops = Ok (s', e) -> f_flag s' = f_flag s) by (by apply HI in Hr).
    clear - H. intros l. induction l as [|o l IH]; intros s s' e Hr; simpl in Hr; [by inversion Hr|].
    destruct (fstep s o) as [[s1 e1]| |] eqn:E1; simpl in Hr; try done.
    destruct (run fstep s1 l) as [[s2 e2]| |] eqn:E2; simpl in Hr; try done. inversion Hr; subst.
    rewrite (IH _ _ _ E2). by eapply H.
  Qed.

  Lemma one_timer : length (poll_timers s) <= 1 /\
    (b = true -> f_state s = SOperational -> seen ev = false -> length (poll_timers s) = 1) /\
    (b = false \/ f_state s = SInit \/ f_state s = SShutDown \/ seen ev = true -> poll_timers s = []).
  Proof.
    destruct flag_reach as [o HI]. rewrite (poll_timers_unique s o (v_poll _ _ _ HI)). pose proof flag_kept as Hf.
    split; [destruct o; simpl; lia|]. split.
    - intros -> H1 H2. by destruct (v_arm _ _ _ HI Hf H1 H2) as [i ->].
    - intros [->|[H|[H|H]]].
      + by apply (v_flag _ _ _ HI) in Hf as [-> _].
      + by apply (v_init _ _ _ HI) in H as [_ ->].
      + by apply (v_none _ _ _ HI) in H as ->.
      + by apply (v_seen _ _ _ HI) in H as ->.
  Qed.

  Lemma first_seen : exists n, polls ev = replicate n false ++ (if seen ev then [true] else []).
  Proof. destruct flag_reach as [o HI]. apply HI. Qed.

  Lemma triggered_once : count is_trigger ev <= (if seen ev then 1 else 0) /\
    (f_state s = SOperational -> seen ev = true -> count is_trigger ev = 1).
  Proof. destruct flag_reach as [o HI]. split; apply HI. Qed.
End Reached.

(** What one poll does while the supervisor is operational. *)
Lemma poll_step ops s ev id flag : run fstep (finit true) ops = Ok (s, ev) -> f_state s = SOperational ->
  In id (poll_timers s) ->
  exists s', fstep s (OFire id flag) =
    Ok (s', if flag then [EPoll true; ETrigger] else [EPoll false; EArm (N.succ (f_last s))]) /\
    poll_timers s' = if flag then [] else [N.succ (f_last s)].
Proof.
  intros Hr Hst Hid. destruct (flag_reach _ _ _ _ Hr) as [o HI].
  rewrite (poll_timers_unique s o (v_poll _ _ _ HI)) in Hid. destruct o as [i|]; [|done].
  destruct Hid as [->|[]]. pose proof (proj2 (v_poll _ _ _ HI id) eq_refl) as E.
  assert (exists s' e, fstep s (OFire id flag) = Ok (s', e)) as (s' & e & Hs) by (simpl; destruct (on_timer_trigger _ _ _ _); by eexists _, _).
  assert (Hr' : run fstep (finit true) (ops ++ [OFire id flag]) = Ok (s', ev ++ e)).
  { rewrite run_app, Hr. cbn [rbind run]. rewrite Hs. simpl. by rewrite app_nil_r. }
  exists s'. rewrite Hs. pose proof Hs as Hs2. simpl in Hs. unfold on_timer_trigger in Hs. rewrite E in Hs.
  destruct (one_timer _ _ _ _ Hr') as (_ & _ & H3). destruct (flag_reach _ _ _ _ Hr') as [o' HI'].
  unfold on_shutdown_check_timer, do_shutdown in Hs. destruct flag; simpl in Hs; rewrite ?Hst in Hs; inversion Hs; subst; clear Hs.
  - split; [done|]. apply H3. right. right. right. rewrite seen_app. unfold seen at 2. simpl. apply orb_true_r.
  - split; [done|]. rewrite (poll_timers_unique _ o' (v_poll _ _ _ HI')).
    assert (o' = Some (N.succ (f_last s))) as ->; [|done]. apply (v_poll _ _ _ HI'). simpl.
    rewrite lookup_delete_ne; [by rewrite lookup_insert|]. apply (v_ids _ _ _ HI) in E. lia.
Qed.
