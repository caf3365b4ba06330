(** What was asked for is under way: the initialization of children, and the ends
    which a child or the supervisor asked for. *)
From stdpp Require Import base list gmap.
From Verif Require Import Base ChildMgrModel ChildMgrSpec ChildMgrProofs ChildMgrTrace ChildMgrFacts FamilyModel FamilySpec FamilySteps FamilyFold FamilyInv FamilyChild FamilyProofs.
Open Scope N_scope.

(** In the queue, or in the outbound messages of a foreign child. *)
Definition infl (s : fstate) (m : fmsg) : Prop := m ∈ f_q s \/ exists c, m ∈ upl s c.
Definition trig (s : fstate) (ev : list cevent) (c : N) : Prop := EShutReq c ∈ ev \/ removed c ev \/ infl s (MTrigger c).
Definition prog (s : fstate) (ev : list cevent) (c : N) : Prop :=
  EInitOk c ∈ ev \/ ESelfShutdown ∈ ev \/ EInitError ∈ ev \/ trig s ev c \/ MCreate c ∈ f_q s \/ MInitTimeout c ∈ f_q s \/ c ∈ f_init s.
Definition reqd (s : fstate) (ev : list cevent) (c : N) : Prop := MCreate c ∈ f_q s \/ EInitReq c ∈ ev.
Definition selfz (s : cstate) : Prop := forall i, cm_map s !! 0 = Some i -> ci_shut i <> SNone -> 5 <= rank (cm_state s).
Definition selfd (s : fstate) : Prop := infl s (MTrigger 0) \/ 5 <= rank (cm_state (f_cm s)).

Section init.
Context (hp : bool) (policy : spolicy) (sync : bool).
Notation step := (cstep hp policy sync).
Notation fstep := (fstep hp policy sync).
Notation manage := (manage hp policy sync).
Notation manage0 := (manage0 hp policy sync).

(** ** The child manager forgets an init request only with its child *)
Lemma foldl_cancel_in l : forall s c, c ∈ cm_initout s -> c ∉ l -> c ∈ cm_initout (foldl cancel_init s l).
Proof.
  induction l as [|x l IH]; intros s c Hc Hl; [done|]. cbn. apply not_elem_of_cons in Hl as [Hn Hl]. apply IH; [|done].
  destruct (cancel_kept s x) as (_ & _ & _ & _ & _ & H). by apply H.
Qed.
Lemma all_initout s c : c ∈ cm_initout s -> c ∈ cm_initout (request_shutdown_all s).1 \/ EShutReq c ∈ (request_shutdown_all s).2.
Proof.
  intros Hc. destruct (decide (c ∈ omap asked (map_to_list (cm_map s)).*2)) as [Hx|Hx].
  - right. rewrite <-in_shutreqs, ask_shutreqs. done.
  - left. unfold request_shutdown_all. cbn. by apply foldl_cancel_in.
Qed.
Lemma remove_initout s a ask s' e c : remove_child policy s a ask = Ok (s', e) -> c ∈ cm_initout s -> c ∈ cm_initout s' \/ removed c e.
Proof.
  intros H Hc. unfold remove_child in H. destruct (cm_map s !! a) as [i|]; [|done].
  set (p1 := (if bool_decide (cm_state s = AInitializing) && negb (ci_started i) then
        if bool_decide (policy = PShutdownFailed) then (s, self_shutdown s)
        else if cm_initreq s then (set_initreq s false, [EInitError]) else (s, [])
      else (s, []))) in H.
  assert (H1 : cm_initout p1.1 = cm_initout s) by (unfold p1; by repeat case_match).
  destruct p1 as [s1 e1]. cbn [fst snd] in H1. destruct (ci_actor i) as [d|]; [|done].
  destruct (cancel_kept s1 d) as (_ & _ & _ & _ & _ & Hk).
  match type of H with match ?p with _ => _ end = _ => set (p2 := p) in H end.
  assert (H2 : cm_initout p2.1.1.1 = cm_initout (cancel_init s1 d)).
  { unfold p2. destruct (_ && _); [|done]. destruct (next_spawn _ _ _ _) as [i' []]; done. }
  destruct p2 as [[[s3 e3] i3] er]. cbn [fst snd] in H2. inversion H; subst; clear H.
  destruct (decide (c = d)) as [->|Hne].
  - right. eexists _, _, _. apply elem_of_app. right. left.
  - left. destruct er; cbn; rewrite H2; apply Hk; congruence.
Qed.
Lemma initout_kept s o s' e c : step s o = Ok (s', e) -> c ∈ cm_initout s -> c <> 0 -> (forall f, o <> OOnInit c f) ->
  c ∈ cm_initout s' \/ EShutReq c ∈ e \/ removed c e.
Proof.
  intros H Hc Hc0 Ho. destruct o as [|cfg|a ok|a|a failed|a|a subs ask|a ask| | | |id|d| | |st|x ch|m ask]; cbn -[create_child spawn on_spawn on_create on_init on_shutdown_trigger on_shutdown_confirm remove_child handle_shutdown handle_start on_spawn_timer deactivate] in H.
  - destruct (create_child s None) as [s1 d] eqn:Hcr. inversion H; subst. left. unfold create_child in Hcr. inversion Hcr; subst. done.
  - left. unfold spawn in H. by inversion H; subst.
  - destruct (take_first a (cm_spawnq s)) as [q|]; [|inversion H; subst; by left]. left. unfold on_spawn in H. cbn [cm_map set_spawnq cm_state cm_initreq cm_now] in H.
    destruct (cm_map s !! a) as [i|]; [|done]. destruct (negb _); [by inversion H; subst|]. destruct (ok && _); [by inversion H; subst|].
    repeat (case_match; simplify_eq; try done). unfold start_timer in *. by simplify_eq.
  - destruct (take_first a (cm_createq s)) as [q|]; [|inversion H; subst; by left]. left. unfold on_create in H. cbn in H. destruct (cm_map s !! a); [|done]. inversion H; subst. cbn. set_solver.
  - case_bool_decide; [|inversion H; subst; by left]. assert (Hx : c ∈ cm_initout s ∖ {[a]}). { assert (a <> c) by (intros ->; by apply (Ho failed)). set_solver. }
    left. unfold on_init in H. repeat (case_match; simplify_eq; try done).
  - unfold on_shutdown_trigger in H. destruct (cm_map s !! a) as [i|]; [|done]. unfold request_shutdown in H.
    destruct (ci_shut i); [|inversion H; subst; by left|inversion H; subst; by left]. destruct (ci_actor i) as [y|]; [|done].
    destruct (cancel_kept s y) as (_ & _ & _ & _ & _ & Hk). destruct (N.eqb_spec y 0) as [Hy|Hy]; [subst y|].
    + destruct hp.
      * inversion H; subst. left. cbn. by apply Hk.
      * case_bool_decide; [inversion H; subst; left; cbn; by apply Hk|].
        pose proof (all_initout (set_state (put_info (cancel_init s 0) a (i_shut i SConfirmed)) AShuttingDown) c) as Hx.
        destruct (request_shutdown_all _) as [s1 e1]. cbn in Hx. inversion H; subst. destruct Hx as [?|?]; [by apply Hk|by left|].
        right. left. right. apply elem_of_app. by left.
    + inversion H; subst. destruct (decide (c = y)) as [->|Hne]; [right; left; left|left; cbn; by apply Hk].
  - case_bool_decide; [|inversion H; subst; by left]. unfold on_shutdown_confirm in H. cbn [cm_map set_shutout] in H. destruct (cm_map s !! a) as [i|]; [|done].
    destruct (ci_actor i); [|done]. destruct subs; [inversion H; subst; by left|].
    destruct (remove_child _ _ _ _) as [[s2 e2]| |] eqn:Hr; try done. cbn in H. inversion H; subst. apply (remove_initout _ _ _ _ _ c) in Hr; [|done].
    destruct Hr as [?|?]; [by left|]. right. right. apply removed_app. by left.
  - case_bool_decide; [|inversion H; subst; by left]. apply (remove_initout _ _ _ _ _ c) in H; [|done]. destruct H; auto.
  - inversion H; subst. by left.
  - case_bool_decide; [|inversion H; subst; by left]. unfold handle_shutdown in H. destruct (cm_map s !! 0) as [i|]; [|done].
    pose proof (all_initout (put_info s 0 (i_shut i SConfirmed)) c Hc) as Hx. destruct (request_shutdown_all _) as [s1 e1]. cbn in Hx. inversion H; subst.
    destruct Hx as [?|?]; [by left|]. right. left. apply elem_of_app. by left.
  - case_bool_decide; [|inversion H; subst; by left]. unfold handle_start in H. left. destruct sync; by inversion H; subst.
  - unfold on_spawn_timer in H. repeat (case_match; simplify_eq; try by left).
  - inversion H; subst. by left.
  - inversion H; subst. by left.
  - left. repeat (case_match; simplify_eq; try done).
  - left. repeat (case_match; simplify_eq; try done).
  - left. repeat (case_match; simplify_eq; try done).
  - case_bool_decide; [|inversion H; subst; by left]. unfold deactivate in H. destruct (_ && _); [|inversion H; subst; by left].
    apply (remove_initout _ _ _ _ _ c) in H; [|done]. destruct H; auto.
Qed.

(** ** What a move of the child manager leaves under way *)
Lemma react_keeps fo ea s x : (forall m, m ∈ f_q s -> m ∈ f_q (react hp fo ea s x)) /\ (forall c m, m ∈ upl s c -> m ∈ upl (react hp fo ea s x) c) /\
  (forall c, c ∈ f_init s -> c ∈ f_init (react hp fo ea s x)).
Proof.
  assert (Hp : forall (t : fstate) l, (forall m, m ∈ f_q t -> m ∈ f_q (push t l)) /\ (forall c m, m ∈ upl t c -> m ∈ upl (push t l) c) /\
    (forall c, c ∈ f_init t -> c ∈ f_init (push t l))).
  { intros t l. split_and!; try done. intros m Hm. cbn. apply elem_of_app. by left. }
  assert (Hf : forall (t : fstate) d l, (forall m, m ∈ f_q t -> m ∈ f_q (from t d l)) /\ (forall c m, m ∈ upl t c -> m ∈ upl (from t d l) c) /\
    (forall c, c ∈ f_init t -> c ∈ f_init (from t d l))).
  { intros t d l. unfold from. destruct (decide _); [|apply Hp]. split_and!; try done. intros c m Hm. unfold upl. cbn.
    destruct (decide (d = c)) as [->|Hne]; [rewrite lookup_insert; cbn; apply elem_of_app; by left|by rewrite lookup_insert_ne]. }
  destruct x; cbn; try (by split_and!); try apply Hp; try apply Hf; try (case_match; first [by split_and!|apply Hp]).
  - destruct fo, ea; destruct (Hp (from (set_foreign s (f_foreign s ∪ {[c]})) c [MTrigger c]) [MCreate c]) as (P1 & P2 & P3);
    destruct (Hf (set_foreign s (f_foreign s ∪ {[c]})) c [MTrigger c]) as (Q1 & Q2 & Q3);
    destruct (Hp (from s c [MTrigger c]) [MCreate c]) as (P4 & P5 & P6); destruct (Hf s c [MTrigger c]) as (Q4 & Q5 & Q6);
    destruct (Hp s [MCreate c]) as (P7 & P8 & P9); destruct (Hp (set_foreign s (f_foreign s ∪ {[c]})) [MCreate c]) as (P10 & P11 & P12);
    split_and!; auto.
  - destruct (Hp (set_init s (f_init s ∪ {[c]})) [MInitReq c]) as (P1 & P2 & P3). split_and!; auto. intros d Hd. apply P3. cbn. set_solver.
  - destruct (Hp (set_shut s (f_shut s ∪ {[c]})) [MShutReq c]) as (P1 & P2 & P3). split_and!; auto.
Qed.
Lemma fold_keeps fo ea e : forall s, (forall m, m ∈ f_q s -> m ∈ f_q (foldl (react hp fo ea) s e)) /\
  (forall c m, m ∈ upl s c -> m ∈ upl (foldl (react hp fo ea) s e) c) /\ (forall c, c ∈ f_init s -> c ∈ f_init (foldl (react hp fo ea) s e)).
Proof.
  induction e as [|x e IH]; intros s; [done|]. cbn. destruct (react_keeps fo ea s x) as (A1 & A2 & A3), (IH (react hp fo ea s x)) as (B1 & B2 & B3). split_and!; auto.
Qed.
(** The message of an event is sent. *)
Definition shows (x : cevent) (s : fstate) : Prop :=
  match x with
  | ECreated c => MCreate c ∈ f_q s
  | EInitReq c => c ∈ f_init s
  | ESelfShutdown => hp = false -> MTrigger 0 ∈ f_q s
  | EEscalate => MTrigger 0 ∈ f_q s
  | EChildShutdown c => infl s (MTrigger c)
  | _ => True
  end.
Lemma react_shows fo ea s x : shows x (react hp fo ea s x).
Proof.
  destruct x; cbn; try done; try (apply elem_of_app; right; by left).
  - set_solver.
  - intros ->. cbn. apply elem_of_app; right; by left.
  - unfold from. destruct (decide _).
    + right. exists c. unfold upl. cbn. rewrite lookup_insert. cbn. apply elem_of_app; right; by left.
    + left. cbn. apply elem_of_app; right; by left.
Qed.
Lemma fold_shows fo ea e : forall s x, x ∈ e -> shows x (foldl (react hp fo ea) s e).
Proof.
  induction e as [|y e IH]; intros s x Hx; [by apply elem_of_nil in Hx|]. cbn. apply elem_of_cons in Hx as [->|Hx]; [|by apply IH].
  pose proof (react_shows fo ea s y) as Hs. destruct (fold_keeps fo ea e (react hp fo ea s y)) as (K1 & K2 & K3).
  destruct y; cbn [shows] in *; auto. destruct Hs as [?|[d ?]]; [left; auto|right; exists d; auto].
Qed.

Lemma manage_keeps fo ea s o s' e : manage fo ea s o = Ok (s', e) ->
  (forall m, m ∈ f_q s -> m ∈ f_q s') /\ (forall m, infl s m -> infl s' m) /\
  (forall c, c ∈ f_init s -> c ∈ cm_initout (f_cm s) -> c <> 0 -> (forall f, o <> OOnInit c f) -> c ∈ f_init s' \/ EShutReq c ∈ e \/ removed c e) /\
  (forall x, x ∈ e -> match x with EInitReq c => c ∈ cm_initout (f_cm s') -> c ∈ f_init s' | _ => shows x s' end) /\ step (f_cm s) o = Ok (f_cm s', e).
Proof.
  unfold FamilyModel.manage. destruct (step (f_cm s) o) as [[cm e1]| |] eqn:Hst; try done. cbn. intros H. injection H as Hs He. subst e1.
  destruct (fold_keeps fo ea e (set_cm s cm)) as (K1 & K2 & K3). pose proof (fold_shows fo ea e (set_cm s cm)) as Ksh.
  assert (Hcm : f_cm s' = cm). { rewrite <-Hs. cbn. by rewrite fold_cm. }
  rewrite Hcm. set (t := foldl _ _ _) in *. clearbody t. subst s'. split_and!.
  - intros m Hm. apply K1. done.
  - intros m [Hm|[c Hm]]; [left; by apply K1|right; exists c; by apply K2].
  - intros c Hc Hi Hc0 Ho. destruct (initout_kept _ _ _ _ c Hst Hi Hc0 Ho) as [Hx|?]; [|by right]. left. cbn. apply elem_of_intersection. split; [by apply K3|done].
  - intros x Hx. specialize (Ksh x Hx). destruct x; cbn [shows] in *; try done. intros Hi. cbn. apply elem_of_intersection. by split.
  - done.
Qed.

Lemma trig_manage fo ea s ev o s' e c : manage fo ea s o = Ok (s', e) -> trig s ev c -> trig s' (ev ++ e) c.
Proof.
  intros H. destruct (manage_keeps fo ea s o s' e H) as (_ & K & _). intros [?|[?|?]]; [left; apply elem_of_app; by left|right; left; apply removed_app; by left|right; right; auto].
Qed.
Lemma prog_manage fo ea s ev o s' e c : manage fo ea s o = Ok (s', e) -> (c ∈ f_init s -> c ∈ cm_initout (f_cm s)) -> c <> 0 -> (forall f, o <> OOnInit c f) ->
  prog s ev c -> prog s' (ev ++ e) c.
Proof.
  intros H Hi Hc0 Ho. destruct (manage_keeps fo ea s o s' e H) as (K1 & _ & K3 & _). unfold prog. rewrite !elem_of_app.
  intros [?|[?|[?|[Ht|[?|[?|Hx]]]]]]; auto 10.
  - do 3 right. left. by eapply trig_manage.
  - destruct (K3 c Hx (Hi Hx) Hc0 Ho) as [?|[?|?]]; [auto 10| |]; do 3 right; left.
    + left. apply elem_of_app. by right.
    + right. left. apply removed_app. by right.
Qed.
Lemma reqd_manage fo ea s ev o s' e c : manage fo ea s o = Ok (s', e) -> reqd s ev c -> reqd s' (ev ++ e) c.
Proof. intros H. destruct (manage_keeps fo ea s o s' e H) as (K & _). intros [?|?]; [left; auto|right; apply elem_of_app; by left]. Qed.

(** ** The message at hand *)
Lemma has_dec s c : has_actor s c \/ ~ has_actor s c.
Proof.
  unfold has_actor. destruct (cm_map s !! c) as [i|]; [|right; by intros (? & ? & _)].
  destruct (ci_actor i) eqn:Ha; [left; exists i; split; [done|by eexists]|right]. intros (j & Hj & Hx). injection Hj as <-. rewrite Ha in Hx. by destruct Hx.
Qed.
Lemma on_trigger fo ea s ev c s' e : allinv False (f_cm s) ev -> c <> 0 -> has_actor (f_cm s) c -> manage fo ea s (OTrigger c) = Ok (s', e) -> EShutReq c ∈ ev ++ e.
Proof.
  intros Ha Hc0 (i & Hi & Hx) H. destruct (manage_keeps fo ea s _ s' e H) as (_ & _ & _ & _ & Hst). apply elem_of_app.
  cbn in Hst. unfold on_shutdown_trigger in Hst. rewrite Hi in Hst. unfold request_shutdown in Hst.
  destruct (ci_shut i) eqn:Hs; [|left; eapply h_asked; eauto; [apply Ha|congruence]..].
  destruct (ci_actor i) as [d|] eqn:Hd; [|done]. assert (d = c) as -> by (eapply v_key; eauto; apply Ha).
  apply N.eqb_neq in Hc0. rewrite Hc0 in Hst. inversion Hst; subst. right. left.
Qed.
Lemma on_created fo ea s c s' e q : manage fo ea s (OOnCreate c) = Ok (s', e) -> take_first c (cm_createq (f_cm s)) = Some q -> EInitReq c ∈ e /\ c ∈ f_init s'.
Proof.
  intros H Hq. destruct (manage_keeps fo ea s _ s' e H) as (_ & _ & _ & K & Hst). cbn -[on_create] in Hst. rewrite Hq in Hst. unfold on_create in Hst. cbn in Hst.
  destruct (cm_map (f_cm s) !! c); [|done]. injection Hst as Hcm <-. split; [left|]. apply (K (EInitReq c)); [left|]. rewrite <-Hcm. cbn. set_solver.
Qed.
Lemma on_inited fo ea s ev c f s' e ch : allinv False (f_cm s) ev -> c <> 0 -> c ∈ cm_initout (f_cm s) -> has_actor (f_cm s) c -> cm_children (f_cm s) !! c = Some ch ->
  (5 <= rank (ch_state ch) -> EShutReq c ∈ ev) -> manage fo ea s (OOnInit c f) = Ok (s', e) -> prog s' (ev ++ e) c.
Proof.
  intros Ha Hc0 Hio (i & Hi & Hx) Hch Hr H. destruct (manage_keeps fo ea s _ s' e H) as (_ & _ & _ & K & Hst). unfold prog. rewrite !elem_of_app.
  cbn -[on_init] in Hst. rewrite bool_decide_true in Hst by done. unfold on_init in Hst. cbn [cm_map set_initout cm_state cm_initreq] in Hst. rewrite Hi in Hst.
  destruct f.
  - destruct (bool_decide (cm_state (f_cm s) = AInitializing) && _) eqn:Hb.
    + apply andb_true_iff in Hb as [Hb _]. apply bool_decide_eq_true in Hb.
      assert (Hs : ESelfShutdown ∈ self_shutdown (set_initout (f_cm s) (cm_initout (f_cm s) ∖ {[c]}))). { unfold self_shutdown. cbn. rewrite Hb. cbn. left. }
      destruct (cm_initreq (f_cm s)).
      * apply N.eqb_neq in Hc0. rewrite Hc0 in Hst. injection Hst as _ <-. do 2 right. left. right. left.
      * injection Hst as _ <-. right. left. by right.
    + destruct (ci_actor i) as [d|] eqn:Hd; [|done]. assert (d = c) as -> by (eapply v_key; eauto; apply Ha).
      apply N.eqb_neq in Hc0. rewrite Hc0 in Hst. injection Hst as _ He. unfold child_shutdown in He. cbn in He. rewrite Hch in He.
      do 3 right. left. destruct (N.ltb_spec (rank (ch_state ch)) 5) as [Hlt|Hge].
      * right. right. subst e. apply (K (EChildShutdown c)). left.
      * left. apply elem_of_app. left. auto.
  - injection Hst as _ <-. left. right. left.
Qed.

(** ** The end of the supervisor itself *)
Definition shut0 (s : cstate) : option shutst := ci_shut <$> cm_map s !! 0.
Lemma remove_shut0 s a ask s' e : a <> 0 -> remove_child policy s a ask = Ok (s', e) -> shut0 s' = shut0 s.
Proof.
  intros Ha H. unfold remove_child in H. destruct (cm_map s !! a) as [i|]; [|done].
  set (p1 := (if bool_decide (cm_state s = AInitializing) && negb (ci_started i) then
        if bool_decide (policy = PShutdownFailed) then (s, self_shutdown s)
        else if cm_initreq s then (set_initreq s false, [EInitError]) else (s, [])
      else (s, []))) in H.
  assert (H1 : cm_map p1.1 = cm_map s) by (unfold p1; by repeat case_match).
  destruct p1 as [s1 e1]. cbn [fst snd] in H1. destruct (ci_actor i) as [d|]; [|done].
  destruct (cancel_kept s1 d) as (_ & Hk & _).
  match type of H with match ?p with _ => _ end = _ => set (p2 := p) in H end.
  assert (H2 : cm_map p2.1.1.1 = cm_map s).
  { unfold p2. destruct (_ && _); [|by cbn; congruence]. destruct (next_spawn _ _ _ _) as [i' []]; cbn; congruence. }
  destruct p2 as [[[s3 e3] i3] er]. cbn [fst snd] in H2. inversion H; subst; clear H. unfold shut0.
  destruct er; cbn; rewrite H2; [by rewrite lookup_delete_ne|by rewrite lookup_insert_ne].
Qed.
Lemma selfz_step s o s' e ev : step s o = Ok (s', e) -> match o with OChild _ _ => False | _ => True end -> allinv False s ev -> 0 ∉ cm_unsub s -> hp = false -> selfz s -> selfz s'.
Proof.
  intros H Hno Ha Hu Hp Hz. pose proof (ai_c _ _ _ Ha) as Hv.
  destruct (decide (5 <= rank (cm_state s))) as [H5|H5].
  { intros i _ _. eapply ef_rank; [|exact H5]. eapply step_eff; eauto. }
  assert (Hn : shut0 s = Some SNone \/ shut0 s = None).
  { unfold shut0. destruct (cm_map s !! 0) as [i|] eqn:Hi; [|by right]. left. cbn. f_equal. destruct (ci_shut i) eqn:Hs; [done|..]; exfalso; apply H5, (Hz i Hi); congruence. }
  assert (Hgoal : shut0 s' = shut0 s -> selfz s').
  { intros Heq i Hi Hs. exfalso. rewrite <-Heq in Hn. unfold shut0 in Hn. rewrite Hi in Hn. cbn in Hn. destruct Hn as [Hn|Hn]; [|done]. by injection Hn as Hn. }
  assert (Hkey : forall a i, cm_map s !! a = Some i -> ci_actor i = None -> a <> 0).
  { intros a i Hi Hx ->. destruct (v_self _ Hv i Hi). congruence. }
  pose proof (v_next _ Hv) as Hnx.
  destruct o as [|cfg|a ok|a|a failed|a|a subs ask|a ask| | | |id|d| | |st|x ch|m ask];
    cbn -[create_child spawn on_spawn on_create on_init on_shutdown_trigger on_shutdown_confirm remove_child handle_shutdown handle_start on_spawn_timer deactivate] in H.
  - apply Hgoal. destruct (create_child s None) as [s1 d] eqn:Hcr. inversion H; subst. unfold create_child in Hcr. inversion Hcr; subst. unfold shut0. cbn. rewrite lookup_insert_ne by lia. done.
  - apply Hgoal. unfold spawn in H. inversion H; subst. unfold shut0. cbn. rewrite lookup_insert_ne by lia. done.
  - destruct (take_first a (cm_spawnq s)) as [q|] eqn:Hq; [|apply Hgoal; by inversion H; subst]. apply Hgoal. unfold on_spawn in H. cbn [cm_map set_spawnq cm_state cm_initreq cm_now] in H.
    destruct (cm_map s !! a) as [i|] eqn:Hi; [|done]. 
    assert (Ha0 : a <> 0). { destruct (take_first_in _ _ _ Hq) as [Hin _]. destruct (v_q _ Hv a Hin) as (j & Hj & Hx & _). by eapply Hkey. }
    destruct (negb _); [by inversion H; subst|]. destruct (ok && _).
    + inversion H; subst. unfold shut0. cbn. rewrite lookup_insert_ne by lia. by rewrite lookup_delete_ne.
    + unfold shut0. repeat (case_match; simplify_eq; try done); unfold start_timer in *; simplify_eq; cbn; by rewrite lookup_insert_ne.
  - apply Hgoal. destruct (take_first a (cm_createq s)) as [q|]; [|by inversion H; subst]. unfold on_create in H. cbn in H. destruct (cm_map s !! a); [|done]. by inversion H; subst.
  - apply Hgoal. case_bool_decide; [|by inversion H; subst]. unfold on_init in H. unfold shut0. cbn [cm_map set_initout] in H.
    destruct failed; [repeat (case_match; simplify_eq; try done)|]. destruct (cm_map s !! a) as [i|] eqn:Hi; [|by inversion H; subst].
    inversion H; subst. cbn. destruct (decide (a = 0)) as [->|]; [rewrite lookup_insert, Hi; done|by rewrite lookup_insert_ne].
  - unfold on_shutdown_trigger in H. destruct (cm_map s !! a) as [i|] eqn:Hi; [|done]. unfold request_shutdown in H.
    destruct (ci_shut i); [|apply Hgoal; by inversion H; subst..]. destruct (ci_actor i) as [y|] eqn:Hy; [|done]. assert (y = a) by (by eapply v_key). subst y.
    destruct (cancel_kept s a) as (_ & Hk & _). destruct (N.eqb_spec a 0) as [Ha0|Ha0]; [subst a|].
    + rewrite Hp in H. case_bool_decide as Hb.
      * inversion H; subst. intros j _ _. cbn. destruct (cancel_init_eq s 0) as [z Hz']. rewrite Hb. done.
      * destruct (request_shutdown_all _) as [s1 e1] eqn:Hall. inversion H; subst. intros j _ _. cbn.
        destruct (all_kept (set_state (put_info (cancel_init s 0) 0 (i_shut i SConfirmed)) AShuttingDown)) as (_ & _ & _ & _ & Hst & _).
        rewrite Hall in Hst. cbn in Hst. rewrite Hst. done.
    + inversion H; subst. apply Hgoal. unfold shut0. cbn. rewrite lookup_insert_ne by done. by rewrite Hk.
  - case_bool_decide as Hb; [|apply Hgoal; by inversion H; subst]. assert (Ha0 : a <> 0). { apply (h_out _ _ (ai_h _ _ _ Ha)) in Hb. by apply (h_not _ _ (ai_h _ _ _ Ha)) in Hb as (_ & ? & _). }
    unfold on_shutdown_confirm in H. cbn [cm_map set_shutout] in H. destruct (cm_map s !! a) as [i|]; [|done].
    destruct (ci_actor i); [|done]. apply Hgoal. destruct subs; [inversion H; subst; unfold shut0; cbn; by rewrite lookup_insert_ne|].
    destruct (remove_child _ _ _ _) as [[s2 e2]| |] eqn:Hr; try done. cbn in H. inversion H; subst. apply remove_shut0 in Hr; [|done]. rewrite Hr. unfold shut0. cbn. by rewrite lookup_insert_ne.
  - apply Hgoal. case_bool_decide; [|by inversion H; subst]. apply remove_shut0 in H; [done|]. intros ->. done.
  - apply Hgoal. by inversion H; subst.
  - case_bool_decide as Hb; [rewrite Hb in H5; done|apply Hgoal; by inversion H; subst].
  - apply Hgoal. case_bool_decide; [|by inversion H; subst]. unfold handle_start in H. destruct sync; [|by inversion H; subst]. inversion H; subst.
    unfold shut0. cbn. rewrite map_lookup_imap. by destruct (cm_map s !! 0).
  - apply Hgoal. destruct (cm_timers s !! id) as [d|] eqn:Hd; [|by inversion H; subst]. destruct (_ <=? _); [|by inversion H; subst].
    unfold on_spawn_timer in H. destruct (cm_spawning s !! id) as [key|] eqn:Hk; [|done]. cbn in H.
    destruct (v_spawning _ Hv _ _ Hk) as (Hid & _ & _ & i & Hi & Ht). rewrite Hi in H.
    assert (Ha0 : key <> 0). { eapply Hkey; [exact Hi|]. apply (v_timer _ Hv key i Hi). congruence. }
    destruct (_ <=? 4); inversion H; subst; unfold shut0; cbn; by rewrite lookup_insert_ne.
  - apply Hgoal. by inversion H; subst.
  - apply Hgoal. by inversion H; subst.
  - apply Hgoal. repeat (case_match; simplify_eq; try done).
  - apply Hgoal. repeat (case_match; simplify_eq; try done).
  - done.
  - case_bool_decide as Hb; [rewrite Hb in H5; done|apply Hgoal; by inversion H; subst].
Qed.

Lemma on_trigger0 fo ea s ev s' e : allinv False (f_cm s) ev -> hp = false -> selfz (f_cm s) -> manage fo ea s (OTrigger 0) = Ok (s', e) -> 5 <= rank (cm_state (f_cm s')).
Proof.
  intros Ha Hp Hz H. destruct (manage_keeps fo ea s _ s' e H) as (_ & _ & _ & _ & Hst). pose proof Hst as Hst2.
  cbn -[request_shutdown_all on_shutdown_trigger] in Hst. unfold on_shutdown_trigger in Hst. destruct (cm_map (f_cm s) !! 0) as [i|] eqn:Hi; [|done]. unfold request_shutdown in Hst.
  destruct (decide (ci_shut i = SNone)) as [Hs|Hs].
  - rewrite Hs in Hst. destruct (ci_actor i) as [y|] eqn:Hy; [|done]. assert (y = 0) by (eapply v_key; eauto; apply Ha). subst y. rewrite N.eqb_refl, Hp in Hst.
    case_bool_decide as Hb.
    + injection Hst as Hcm _. rewrite <-Hcm. cbn. destruct (cancel_init_eq (f_cm s) 0) as [z Hz']. rewrite Hb. done.
    + destruct (request_shutdown_all _) as [s1 e1] eqn:Hall. injection Hst as Hcm _. rewrite <-Hcm. cbn.
      destruct (all_kept (set_state (put_info (cancel_init (f_cm s) 0) 0 (i_shut i SConfirmed)) AShuttingDown)) as (_ & _ & _ & _ & Hx & _).
      rewrite Hall in Hx. cbn in Hx. rewrite Hx. done.
  - eapply ef_rank; [eapply (step_eff hp policy sync (f_cm s) (OTrigger 0)); [apply Ha|done|exact Hst2]|]. by apply (Hz i).
Qed.

(** ** Moves of the children *)
Definition calm (m : fmsg) : Prop := match m with MInitReq _ | MShutReq _ | MBye _ => False | _ => True end.
Record bears (s s' : fstate) : Prop := {
  b_q : forall m, calm m -> m ∈ f_q s -> m ∈ f_q s';
  b_in : forall m, calm m -> infl s m -> infl s' m;
  b_init : forall c, c ∈ f_init s -> c ∈ f_init s';
  b_cm : exists M, f_cm s' = set_children (f_cm s) M }.
Lemma bears_refl s : bears s s.
Proof. split; try done. exists (cm_children (f_cm s)). by destruct (f_cm s). Qed.
Lemma bears_trans s1 s2 s3 : bears s1 s2 -> bears s2 s3 -> bears s1 s3.
Proof. intros [A1 A2 A3 [M1 A4]] [B1 B2 B3 [M2 B4]]. split; auto. exists M2. by rewrite B4, A4. Qed.
Lemma bears_push s l : bears s (push s l).
Proof.
  split; try done.
  - intros m _ Hm. cbn. apply elem_of_app. by left.
  - intros m _ [Hm|[c Hm]]; [left; cbn; apply elem_of_app; by left|right; by exists c].
  - exists (cm_children (f_cm s)). cbn. by destruct (f_cm s).
Qed.
Lemma bears_from s c l : bears s (from s c l).
Proof.
  unfold from. destruct (decide _); [|apply bears_push]. split; try done.
  - intros m _ [Hm|[d Hm]]; [by left|right]. exists d. unfold upl. cbn. destruct (decide (c = d)) as [->|]; [rewrite lookup_insert; cbn; apply elem_of_app; by left|by rewrite lookup_insert_ne].
  - exists (cm_children (f_cm s)). cbn. by destruct (f_cm s).
Qed.
Lemma bears_down s x : bears s (set_down s x).
Proof. split; try done. exists (cm_children (f_cm s)). cbn. by destruct (f_cm s). Qed.
Lemma bears_own s c l : bears s (own s c l).
Proof. unfold own. destruct (decide _); [apply bears_down|apply bears_push]. Qed.
Lemma bears_evolve s c ch : bears s (evolve s c ch).
Proof. split; try done. by eexists. Qed.
Lemma bears_bye s x : bears s (set_bye s x).
Proof. split; try done. exists (cm_children (f_cm s)). cbn. by destruct (f_cm s). Qed.
Lemma bears_handles s c m abn esc : bears s (child_handles s c m abn esc).
Proof.
  unfold child_handles. destruct (decide _); [apply bears_refl|]. destruct (cm_children (f_cm s) !! c) as [ch|]; [|apply bears_refl].
  destruct m; try apply bears_refl; try apply bears_evolve; try apply bears_bye.
  destruct esc; (eapply bears_trans; [|apply bears_own]); [eapply bears_trans; [apply bears_evolve|apply bears_from]|apply bears_evolve].
Qed.
Lemma bears_to s c m abn esc : bears s (to_child s c m abn esc).
Proof. unfold to_child. destruct (decide _); [apply bears_down|apply bears_handles]. Qed.
Lemma bears_pop s m q : f_q s = m :: q -> ~ calm m -> bears s (set_q s q).
Proof.
  intros Hq Hm. split; try done.
  - intros x Hx Hin. rewrite Hq in Hin. apply elem_of_cons in Hin as [->|?]; done.
  - intros x Hx [Hin|Hin]; [|by right]. rewrite Hq in Hin. apply elem_of_cons in Hin as [->|?]; [done|by left].
  - exists (cm_children (f_cm s)). cbn. by destruct (f_cm s).
Qed.

Lemma bears_arrive s c m l : upl s c = m :: l -> bears s (push (set_up s (<[c := l]> (f_up s))) [m]).
Proof.
  intros Hl. split; try done.
  - intros x _ Hx. cbn. apply elem_of_app. by left.
  - intros x _ [Hx|[d Hx]]; [left; cbn; apply elem_of_app; by left|]. destruct (decide (d = c)) as [->|Hne].
    + rewrite Hl in Hx. apply elem_of_cons in Hx as [->|Hx]; [left; cbn; apply elem_of_app; right; left|]. right. exists c. unfold upl. cbn. by rewrite lookup_insert.
    + right. exists d. unfold upl. cbn. by rewrite lookup_insert_ne.
  - exists (cm_children (f_cm s)). cbn. by destruct (f_cm s).
Qed.

(** ** The invariant *)
Definition jinv (s : fstate) (ev : list cevent) : Prop :=
  (forall c, ECreated c ∈ ev -> reqd s ev c /\ prog s ev c) /\
  (hp = false -> selfz (f_cm s) /\ (ESelfShutdown ∈ ev \/ EEscalate ∈ ev -> selfd s)).
Lemma bears_trig s s' ev c : bears s s' -> trig s ev c -> trig s' ev c.
Proof. intros [B1 B2 B3 B4] [?|[?|?]]; [by left|right; by left|right; right]. by apply B2. Qed.
Lemma bears_prog s s' ev c : bears s s' -> prog s ev c -> prog s' ev c.
Proof.
  intros B. pose proof B as [B1 B2 B3 B4]. unfold prog. intros [?|[?|[?|[?|[?|[?|?]]]]]]; auto 10.
  - do 3 right. left. by eapply bears_trig.
  - do 4 right. left. by apply B1.
  - do 5 right. left. by apply B1.
Qed.
Lemma bears_selfd s s' : bears s s' -> selfd s -> selfd s'.
Proof. intros [B1 B2 B3 [M B4]] [?|?]; [left; by apply B2|right]. by rewrite B4. Qed.
Lemma bears_j s s' ev : bears s s' -> jinv s ev -> jinv s' ev.
Proof.
  intros B [J1 J2]. split.
  - intros c Hc. destruct (J1 c Hc) as [Hr Hp]. split; [|by eapply bears_prog]. destruct Hr as [?|?]; [left; by apply B|by right].
  - intros Hp. destruct (J2 Hp) as [Hz Hs]. split; [|intros Hx; eapply bears_selfd; eauto]. destruct (b_cm _ _ B) as [M HM]. rewrite HM. exact Hz.
Qed.
(** A message which nothing depends on. *)
Definition idlem (m : fmsg) : Prop := match m with MCreate _ | MTrigger _ | MInitTimeout _ => False | _ => True end.
Lemma pop_prog s m q ev c : f_q s = m :: q -> m <> MCreate c -> m <> MTrigger c -> m <> MInitTimeout c -> prog s ev c -> prog (set_q s q) ev c.
Proof.
  intros Hq H1 H2 H3. assert (Hin : forall x, x <> m -> x ∈ f_q s -> x ∈ q) by (intros x Hx Hi; rewrite Hq in Hi; by apply elem_of_cons in Hi as [?|?]).
  unfold prog. intros [?|[?|[?|[Ht|[?|[?|?]]]]]]; auto 10.
  - do 3 right. left. destruct Ht as [?|[?|[?|?]]]; [by left|right; by left|right; right; left; by apply Hin|right; right; by right].
Qed.
Lemma pop_reqd s m q ev c : f_q s = m :: q -> m <> MCreate c -> reqd s ev c -> reqd (set_q s q) ev c.
Proof. intros Hq H1 [Hi|?]; [|by right]. left. rewrite Hq in Hi. by apply elem_of_cons in Hi as [?|?]. Qed.
Lemma pop_selfd s m q : f_q s = m :: q -> m <> MTrigger 0 -> selfd s -> selfd (set_q s q).
Proof. intros Hq H1 [[Hi|?]|?]; [|left; by right|by right]. left. left. rewrite Hq in Hi. by apply elem_of_cons in Hi as [?|?]. Qed.
Lemma pop_j s m q ev : f_q s = m :: q -> idlem m -> jinv s ev -> jinv (set_q s q) ev.
Proof.
  intros Hq Hm [J1 J2]. split.
  - intros c Hc. destruct (J1 c Hc). split; [eapply pop_reqd|eapply pop_prog]; eauto; by intros ->.
  - intros Hp. destruct (J2 Hp) as [Hz Hs]. split; [done|]. intros Hx. eapply pop_selfd; eauto. by intros ->.
Qed.

Lemma manage_j fo ea s ev o s' e : manage fo ea s o = Ok (s', e) -> allinv False (f_cm s) ev -> 0 ∉ cm_unsub (f_cm s) -> match o with OChild _ _ => False | _ => True end ->
  (forall c, ECreated c ∈ ev -> c <> 0 -> reqd s' (ev ++ e) c /\ prog s' (ev ++ e) c) ->
  (hp = false -> selfz (f_cm s) /\ (ESelfShutdown ∈ ev \/ EEscalate ∈ ev -> selfd s')) -> jinv s' (ev ++ e).
Proof.
  intros H Ha Hu Ho Hold Hs. destruct (manage_keeps fo ea s o s' e H) as (_ & _ & _ & K & Hst). split.
  - intros c Hc. apply elem_of_app in Hc as [Hc|Hc]; [apply Hold; [done|]; by destruct (h_next _ _ (ai_h _ _ _ Ha) c Hc)|].
    apply K in Hc. cbn in Hc. split; [by left|]. do 4 right. by left.
  - intros Hp. destruct (Hs Hp) as [Hz Hd]. split; [by eapply selfz_step|]. rewrite !elem_of_app. intros [[?|Hx]|[?|Hx]]; auto.
    + apply K in Hx. left. left. by apply Hx.
    + apply K in Hx. left. by left.
Qed.
Lemma manage_selfd fo ea s o s' e ev : manage fo ea s o = Ok (s', e) -> allinv False (f_cm s) ev -> match o with OChild _ _ => False | _ => True end -> selfd s -> selfd s'.
Proof.
  intros H Ha Ho. destruct (manage_keeps fo ea s o s' e H) as (_ & K & _ & _ & Hst). intros [?|?]; [left; by apply K|right].
  eapply ef_rank; [eapply step_eff; eauto; apply Ha|done].
Qed.
Lemma manage_j' fo ea s ev o s' e : manage fo ea s o = Ok (s', e) -> allinv False (f_cm s) ev -> 0 ∉ cm_unsub (f_cm s) -> match o with OChild _ _ => False | _ => True end ->
  (forall c, c ∈ f_init s -> c ∈ cm_initout (f_cm s)) -> (forall c f, o <> OOnInit c f) -> jinv s ev -> jinv s' (ev ++ e).
Proof.
  intros H Ha Hu Ho Hi Hn [J1 J2]. eapply manage_j; eauto.
  - intros c Hc Hc0. destruct (J1 c Hc). split; [by eapply reqd_manage|]. eapply prog_manage; eauto.
  - intros Hp. destruct (J2 Hp) as [Hz Hs]. split; [done|]. intros Hx. eapply manage_selfd; eauto; done.
Qed.

Lemma jinv_init : jinv (finit hp) [].
Proof.
  split; [intros c Hc; by apply elem_of_nil in Hc|]. intros Hp. split.
  - intros i Hi Hs. cbn in Hi. rewrite lookup_singleton in Hi. injection Hi as <-. done.
  - intros [Hx|Hx]; by apply elem_of_nil in Hx.
Qed.

(** The answer to an init request, or its timeout, is handled. *)
Lemma inited_j s ev c f s1 s' e : finv s ev -> 0 ∉ f_bye s -> allinv False (f_cm s1) ev -> cm_map (f_cm s1) = cm_map (f_cm s) -> cm_children (f_cm s1) = cm_children (f_cm s) ->
  cm_unsub (f_cm s1) = cm_unsub (f_cm s) -> cm_state (f_cm s1) = cm_state (f_cm s) -> c ∈ cm_initout (f_cm s1) -> (forall d, d ∈ f_init s1 -> d ∈ cm_initout (f_cm s1)) ->
  (forall d, d <> c -> prog s ev d -> prog s1 ev d) -> (forall d, reqd s ev d -> reqd s1 ev d) -> (selfd s -> selfd s1) ->
  manage0 s1 (OOnInit c f) = Ok (s', e) -> jinv s ev -> jinv s' (ev ++ e).
Proof.
  intros Hfin Hb Ha1 Hm Hch Hun Hst Hc Hi Hp Hr Hs H [J1 J2]. pose proof (fi_rinv _ _ Hfin Hb) as R. pose proof (fi_all _ _ Hfin) as Ha.
  eapply manage_j; [exact H|exact Ha1| |done|..].
  - rewrite Hun. intros Hx. by apply (r_unsub _ _ _ R) in Hx as [_ ?].
  - intros d Hd Hd0. destruct (J1 d Hd) as [Jr Jp]. split; [eapply reqd_manage; eauto|]. destruct (decide (d = c)) as [->|Hne].
    + destruct (removed_dec c ev) as [Hrm|Hrm]; [do 3 right; left; right; left; apply removed_app; by left|].
      destruct (r_created _ _ _ R c Hd) as [ch Hx]. eapply (on_inited false false s1 ev c f s' e ch); eauto.
      * assert (Hac : has_actor (f_cm s) c) by (eapply live_actor; eauto; by eexists). unfold has_actor. by rewrite Hm.
      * by rewrite Hch.
      * intros H5. pose proof (p_dn _ _ _ _ _ (r_child _ _ _ R c ch Hd0 Hx)) as Hdn.
        by destruct Hdn as [(? & _)|[(? & _)|[(_ & ? & _)|(_ & ? & _)]]].
    + eapply prog_manage; eauto. intros f' Hf. injection Hf as Hf _. done.
  - intros Hhp. destruct (J2 Hhp) as [Hz Hd]. split; [unfold selfz; by rewrite Hm, Hst|]. intros Hx. eapply manage_selfd; eauto; done.
Qed.

Lemma deliver_j s ev m q ok foreign early subs ask abn esc s' e : finv s ev -> f_q s = m :: q -> 0 ∉ f_bye s -> 0 ∉ f_bye s' ->
  deliver hp policy sync (set_q s q) m ok foreign early subs ask abn esc = Ok (s', e) -> jinv s ev -> jinv s' (ev ++ e).
Proof.
  intros Hfin Hq Hb Hb' H J. pose proof (fi_rinv _ _ Hfin Hb) as R. pose proof (fi_all _ _ Hfin) as Ha.
  assert (Hb2 : 0 ∉ f_bye (set_q s q)) by done.
  assert (Hun : 0 ∉ cm_unsub (f_cm s)). { intros Hx. by apply (r_unsub _ _ _ R) in Hx as [_ ?]. }
  pose proof (r_initout _ _ _ R) as Hio.
  assert (Hmq : m ∈ f_q s) by (rewrite Hq; left).
  assert (Hfree : forall fo ea o s1 s2 e2, manage fo ea s1 o = Ok (s2, e2) -> f_cm s1 = f_cm s -> f_init s1 = f_init s -> match o with OChild _ _ => False | _ => True end ->
     (forall c f, o <> OOnInit c f) -> jinv s1 ev -> jinv s2 (ev ++ e2)).
  { intros fo ea o s1 s2 e2 H1 H2 H3 H4 H5 H6. eapply manage_j'; eauto; rewrite ?H2, ?H3; done. }
  assert (Hcalm : forall t, ~ calm m -> bears (set_q s q) t -> jinv t (ev ++ [])).
  { intros t Hm Hbe. rewrite app_nil_r. eapply bears_j; [|exact J]. eapply bears_trans; [by eapply bears_pop|done]. }
  destruct m; unfold deliver in H; try rewrite (decide_False _ _ Hb2) in H.
  - (* MCreate *)
    eapply manage_j; [exact H|exact Ha|exact Hun|done|..].
    + intros d Hd Hd0. destruct J as [J1 _]. destruct (J1 d Hd) as [Jr Jp]. destruct (decide (d = c)) as [->|Hne].
      * pose proof (r_createq _ _ _ R) as Hcq. rewrite app_nil_l, Hq in Hcq. cbn in Hcq.
        destruct (on_created false false (set_q s q) c s' e (creates q) H) as [He Hi]; [cbn; rewrite <-Hcq; cbn; by rewrite N.eqb_refl|].
        split; [right; apply elem_of_app; by right|]. by do 6 right.
      * split; [eapply reqd_manage; [exact H|]; eapply pop_reqd; eauto; congruence|]. eapply prog_manage; eauto. eapply pop_prog; eauto; congruence.
    + intros Hp. destruct J as [_ J2]. destruct (J2 Hp) as [Hz Hd]. split; [done|]. intros Hx. eapply manage_selfd; [exact H|exact Ha|done|]. eapply pop_selfd; eauto.
  - (* MSpawn *)
    eapply (Hfree _ _ _ (set_q s q)); eauto; try done. by eapply pop_j.
  - (* MInitReq *)
    destruct (N.eqb_spec c 0) as [->|Hc].
    + eapply (Hfree _ _ _ (set_q s q)); eauto; try done. by eapply pop_j.
    + injection H as <- <-. apply Hcalm; [by intros []|apply bears_to].
  - (* MInitResp *)
    change (f_init (set_q s q)) with (f_init s) in H. destruct (decide (c ∈ f_init s)) as [Hc|Hc].
    + eapply (inited_j s ev c failed (set_init (set_q s q) (f_init s ∖ {[c]}))); eauto; try done.
      * intros d Hd. cbn in Hd. apply Hio. set_solver.
      * intros d Hd Hp. apply (pop_prog s _ q ev d Hq) in Hp; [|done..].
        destruct Hp as [?|[?|[?|[?|[?|[?|Hx]]]]]]; unfold prog; auto 10. do 6 right. cbn in *. set_solver.
      * intros d Hr. by apply (pop_reqd s _ q ev d Hq) in Hr.
      * intros Hs. by apply (pop_selfd s _ q Hq) in Hs.
    + injection H as <- <-. rewrite app_nil_r. by eapply pop_j.
  - (* MInitTimeout *)
    eapply (inited_j s ev c true (set_cm (set_q s q) (set_initout (f_cm s) (cm_initout (f_cm s) ∪ {[c]})))); eauto; try done.
    + cbn. by apply allinv_weak with (f_cm s).
    + cbn. set_solver.
    + intros d Hd. cbn. apply elem_of_union_l. by apply Hio.
    + intros d Hd Hp. apply (pop_prog s _ q ev d Hq) in Hp; [done|done..|congruence].
    + intros d Hr. by apply (pop_reqd s _ q ev d Hq) in Hr.
    + intros Hs. by apply (pop_selfd s _ q Hq) in Hs.
  - (* MTrigger *)
    assert (Hcl : deliver hp policy sync (set_q s q) (MTrigger a) ok foreign early subs ask abn esc = Ok (s', e)).
    { unfold deliver. by rewrite (decide_False _ _ Hb2). }
    eapply manage_j; [exact H|exact Ha|exact Hun|done|..].
    + intros d Hd Hd0. destruct J as [J1 _]. destruct (J1 d Hd) as [Jr Jp]. split; [eapply reqd_manage; [exact H|]; eapply pop_reqd; eauto|].
      destruct (decide (d = a)) as [->|Hne].
      * do 3 right. left. destruct (removed_dec a ev) as [Hrm|Hrm]; [right; left; apply removed_app; by left|]. left.
        eapply (on_trigger false false (set_q s q) ev a s' e); eauto. assert (Hac : has_actor (f_cm s) a) by (eapply live_actor; eauto; by apply (r_created _ _ _ R)). done.
      * eapply prog_manage; eauto. eapply pop_prog; eauto; congruence.
    + intros Hp. destruct J as [_ J2]. destruct (J2 Hp) as [Hz Hd]. split; [done|]. intros Hx. destruct (decide (a = 0)) as [->|Hne].
      * right. by eapply (on_trigger0 false false (set_q s q) ev).
      * eapply manage_selfd; [exact H|exact Ha|done|]. eapply pop_selfd; eauto. congruence.
  - (* MShutReq *)
    injection H as <- <-. apply Hcalm; [by intros []|apply bears_to].
  - (* MShutResp *)
    destruct (decide _); [|injection H as <- <-; rewrite app_nil_r; by eapply pop_j].
    unfold confirm in H. destruct (manage0 _ _) as [[s1 e1]| |] eqn:H1; try done. cbn in H. injection H as <- <-.
    assert (J1 : jinv s1 (ev ++ e1)).
    { eapply (Hfree _ _ _ (set_shut (set_q s q) (f_shut s ∖ {[c]}))); eauto; try done. eapply (bears_j (set_q s q)); [|by eapply pop_j].
      split; try done. exists (cm_children (f_cm s)). cbn. by destruct (f_cm s). }
    destruct subs; [|done]. eapply bears_j; [apply bears_push|done].
  - (* MShutTimeout *)
    exfalso. destruct (r_to _ _ _ R) as (t & r & Tq & T1 & T2). rewrite Tq in Hmq. rewrite Forall_forall in T1, T2. apply elem_of_app in Hmq as [Hx|Hx]; [by apply T1 in Hx|by apply T2 in Hx].
  - (* MUnsub *)
    eapply (Hfree _ _ _ (set_q s q)); eauto; try done. by eapply pop_j.
  - (* MBye *)
    destruct (N.eqb_spec c 0) as [->|Hc].
    + injection H as <- <-. exfalso. apply Hb'. cbn. set_solver.
    + injection H as <- <-. apply Hcalm; [by intros []|apply bears_to].
Qed.

Lemma react_bye' fo ea s o s' e : manage fo ea s o = Ok (s', e) -> f_bye s' = f_bye s.
Proof.
  unfold FamilyModel.manage. destruct (step (f_cm s) o) as [[cm e1]| |]; try done. cbn. intros H. injection H as <- _. cbn. by rewrite fold_bye.
Qed.

Lemma if_or {A} (b : bool) (x y z : A) : (if b then x else y) = z -> x = z \/ y = z.
Proof. destruct b; auto. Qed.
Lemma handles_bye s c m abn esc : 0 ∈ f_bye s -> 0 ∈ f_bye (child_handles s c m abn esc).
Proof.
  intros Hb. unfold child_handles. destruct (decide _); [done|]. destruct (_ !! c); [|done]. destruct m; try done.
  - unfold own, from. destruct esc; cbn -[decide]; repeat (destruct (decide _)); done.
  - cbn. set_solver.
Qed.
Lemma bye_mono s o s' e : fstep s o = Ok (s', e) -> 0 ∈ f_bye s -> 0 ∈ f_bye s'.
Proof.
  intros H Hb.
  assert (Hf : forall t c l, f_bye (from t c l) = f_bye t) by (intros; unfold from; by destruct (decide _)).
  assert (Hto : forall t c m abn esc, 0 ∈ f_bye t -> 0 ∈ f_bye (to_child t c m abn esc)).
  { intros. unfold to_child. destruct (decide _); [done|by apply handles_bye]. }
  destruct o; cbn [FamilyModel.fstep] in H.
  all: try (by rewrite (react_bye' _ _ _ _ _ _ H)).
  - destruct (a =? 0).
    + injection H as <- <-. by destruct (_ && _).
    + destruct (_ !! a); injection H as <- <-; [|done]. destruct (_ <? _); [|done]. by rewrite Hf.
  - destruct (f_q s) as [|m q]; [by injection H as <- <-|]. unfold deliver in H. change (f_bye (set_q s q)) with (f_bye s) in H.
    rewrite !(decide_True _ _ Hb) in H. destruct m; try (by injection H as <- <-).
    + destruct (c =? 0); injection H as <- <-; [done|by apply Hto].
    + injection H as <- <-. by apply Hto.
    + destruct (c =? 0); injection H as <- <-; [cbn; set_solver|by apply Hto].
  - destruct (downl s c); injection H as <- <-; [done|by apply handles_bye].
  - destruct (upl s c); by injection H as <- <-.
  - destruct (child_ready _ _ _); [|by injection H as <- <-]. destruct (ch_initreq _); injection H as <- <-; [by rewrite Hf|done].
  - destruct (child_ready _ _ _); by injection H as <- <-.
  - destruct (child_ready _ _ _); [|by injection H as <- <-]. destruct (decide _); injection H as <- <-; [by rewrite Hf|done].
  - injection H as <- <-. by destruct (decide _).
  - injection H as <- <-. by destruct (decide _).
  - destruct (_ && _); [|by injection H as <- <-]. destruct (manage0 _ _) as [[s1 e1]| |] eqn:H1; try done. cbn in H. injection H as <- <-.
    pose proof (react_bye' _ _ _ _ _ _ H1) as Hx. destruct hp; cbn; by rewrite Hx.
  - apply if_or in H as [H|H]; [by rewrite (react_bye' _ _ _ _ _ _ H)|by injection H as <- <-].
  - apply if_or in H as [H|H]; [by rewrite (react_bye' _ _ _ _ _ _ H)|by injection H as <- <-].
  - destruct (bool_decide _); [by rewrite (react_bye' _ _ _ _ _ _ H)|by injection H as <- <-].
  - destruct (bool_decide _); [|by injection H as <- <-]. destruct (manage0 _ _) as [[s1 e1]| |] eqn:H1; try done. cbn in H. injection H as <- <-.
    pose proof (react_bye' _ _ _ _ _ _ H1) as Hx. destruct mapping_empty; cbn; by rewrite Hx.
  - injection H as <- <-. by destruct (bool_decide _).
Qed.

Lemma step_j s ev o s' e : finv s ev -> orderly s o -> fstep s o = Ok (s', e) -> 0 ∉ f_bye s' -> jinv s ev -> jinv s' (ev ++ e).
Proof.
  intros Hfin Ho H Hb' J. assert (Hb : 0 ∉ f_bye s) by (intros Hb; apply Hb'; by eapply bye_mono).
  pose proof (fi_rinv _ _ Hfin Hb) as R. pose proof (fi_all _ _ Hfin) as Ha.
  assert (Hun : 0 ∉ cm_unsub (f_cm s)). { intros Hx. by apply (r_unsub _ _ _ R) in Hx as [_ ?]. }
  pose proof (r_initout _ _ _ R) as Hio.
  assert (Hfree : forall fo ea o s1 s2 e2, manage fo ea s1 o = Ok (s2, e2) -> f_cm s1 = f_cm s -> f_init s1 = f_init s -> match o with OChild _ _ => False | _ => True end ->
     (forall c f, o <> OOnInit c f) -> jinv s1 ev -> jinv s2 (ev ++ e2)).
  { intros fo ea o1 s1 s2 e2 H1 H2 H3 H4 H5 H6. eapply manage_j'; eauto; rewrite ?H2, ?H3; done. }
  assert (Hbe : forall t, bears s t -> jinv t (ev ++ [])).
  { intros t Hbe. rewrite app_nil_r. by eapply bears_j. }
  destruct o; cbn [FamilyModel.fstep] in H.
  all: try (exfalso; exact Ho).
  all: try (by eapply (Hfree _ _ _ s); eauto).
  - destruct (a =? 0).
    + injection H as <- <-. apply Hbe. destruct (_ && _); [apply bears_push|apply bears_refl].
    + destruct (_ !! a); injection H as <- <-; apply Hbe; [|apply bears_refl]. destruct (_ <? _); [apply bears_from|apply bears_refl].
  - destruct (f_q s) as [|m q] eqn:Hq; [injection H as <- <-; apply Hbe, bears_refl|]. by eapply deliver_j.
  - destruct (downl s c); injection H as <- <-; apply Hbe; [apply bears_refl|]. eapply bears_trans; [apply bears_down|apply bears_handles].
  - destruct (upl s c) as [|m l] eqn:Hl; injection H as <- <-; apply Hbe; [apply bears_refl|]. by eapply bears_arrive.
  - destruct (child_ready _ _ _); [|injection H as <- <-; apply Hbe, bears_refl]. destruct (ch_initreq _); injection H as <- <-; apply Hbe; [|apply bears_refl].
    eapply bears_trans; [apply bears_evolve|apply bears_from].
  - destruct (child_ready _ _ _); injection H as <- <-; apply Hbe; [apply bears_evolve|apply bears_refl].
  - destruct (child_ready _ _ _); [|injection H as <- <-; apply Hbe, bears_refl]. destruct (decide _); injection H as <- <-; apply Hbe; [|apply bears_refl].
    eapply bears_trans; [apply bears_evolve|apply bears_from].
  - injection H as <- <-. rewrite app_nil_r. destruct (decide _) as [Hc|]; [|done]. destruct J as [J1 J2]. split.
    2: { intros Hp. destruct (J2 Hp) as [Hz Hs]. split; [exact Hz|]. intros Hx. eapply (bears_selfd _ (push s [MInitTimeout c])) in Hs; [exact Hs|apply bears_push|done]. }
    intros d Hd. destruct (J1 d Hd) as [Hr Hp]. split.
    + destruct Hr as [Hr|Hr]; [left; cbn; apply elem_of_app; by left|by right].
    + pose proof (bears_push s [MInitTimeout c]) as B.
      destruct (bears_prog _ _ _ _ B Hp) as [?|[?|[?|[?|[?|[?|Hx]]]]]]; unfold prog; auto 10. cbn in Hx. destruct (decide (d = c)) as [->|].
      * do 5 right. left. cbn. apply elem_of_app. right. left.
      * do 6 right. cbn. set_solver.
  - destruct (_ && _); [|injection H as <- <-; apply Hbe, bears_refl]. destruct (manage0 _ _) as [[s1 e1]| |] eqn:H1; try done. cbn in H. injection H as <- <-.
    assert (J1 : jinv s1 (ev ++ e1)) by (eapply (Hfree _ _ _ s); eauto; done). revert J1. generalize hp at 1. intros b J1. destruct b; [done|]. eapply bears_j; [apply bears_push|done].
  - apply if_or in H as [H|H]; [|injection H as <- <-; apply Hbe, bears_refl]. by eapply (Hfree _ _ _ s); eauto.
  - apply if_or in H as [H|H]; [|injection H as <- <-; apply Hbe, bears_refl]. by eapply (Hfree _ _ _ s); eauto.
  - destruct (bool_decide _); [|injection H as <- <-; apply Hbe, bears_refl]. by eapply (Hfree _ _ _ s); eauto.
  - destruct (bool_decide _); [|injection H as <- <-; apply Hbe, bears_refl]. destruct (manage0 _ _) as [[s1 e1]| |] eqn:H1; try done. cbn in H. injection H as <- <-.
    assert (J1 : jinv s1 (ev ++ e1)). { eapply (Hfree _ _ _ (set_phase s PLeft)); eauto; done. } destruct mapping_empty; [|done]. eapply bears_j; [apply bears_push|done].
  - injection H as <- <-. apply Hbe. destruct (bool_decide _); [apply bears_push|apply bears_refl].
Qed.
(** ** A trigger is not lost *)
Definition keeps (s : fstate) (ev : list cevent) (s' : fstate) (e : list cevent) : Prop :=
  (forall c, ECreated c ∈ ev -> trig s ev c -> trig s' (ev ++ e) c) /\ (hp = false -> selfd s -> selfd s').
Lemma bears_keeps s ev s' : bears s s' -> keeps s ev s' [].
Proof. intros B. split; [intros c _ Ht; rewrite app_nil_r; by eapply bears_trig|intros _ Hs; by eapply bears_selfd]. Qed.
Lemma pop_keeps s ev m q : f_q s = m :: q -> match m with MTrigger _ => False | _ => True end -> keeps s ev (set_q s q) [].
Proof.
  intros Hq Hm. split.
  - intros c _ Ht. rewrite app_nil_r. destruct Ht as [?|[?|[Hx|?]]]; [by left|right; by left|right; right; left|right; right; by right].
    rewrite Hq in Hx. apply elem_of_cons in Hx as [<-|?]; done.
  - intros _ Hs. eapply pop_selfd; eauto. by intros ->.
Qed.
Lemma manage_keeps' fo ea s ev o s' e : manage fo ea s o = Ok (s', e) -> allinv False (f_cm s) ev -> match o with OChild _ _ => False | _ => True end -> keeps s ev s' e.
Proof. intros H Ha Ho. split; [intros c _ Ht; eapply trig_manage; eauto|intros _ Hs; eapply manage_selfd; eauto]. Qed.
Lemma keeps_trans s ev s1 s2 e : keeps s ev s1 [] -> keeps s1 ev s2 e -> keeps s ev s2 e.
Proof. intros [A1 A2] [B1 B2]. split; [|auto]. intros c Hc Ht. apply (A1 c Hc) in Ht. rewrite app_nil_r in Ht. auto. Qed.
Lemma keeps_then s ev s1 s2 e : keeps s ev s1 e -> bears s1 s2 -> keeps s ev s2 e.
Proof. intros [A1 A2] B. split; [intros c Hc Ht; eapply bears_trig; eauto|intros Hp Hs; eapply bears_selfd; eauto]. Qed.
Lemma same_keeps s ev s' : f_q s' = f_q s -> f_up s' = f_up s -> cm_state (f_cm s') = cm_state (f_cm s) -> keeps s ev s' [].
Proof.
  intros H1 H2 H3. assert (Hi : forall m, infl s m -> infl s' m) by (intros m; unfold infl, upl; by rewrite H1, H2).
  split; [|intros _; unfold selfd; rewrite H3; intros [?|?]; auto]. intros c _ [?|[?|?]]; rewrite app_nil_r; [by left|right; by left|right; right; auto].
Qed.

Lemma deliver_keeps s ev m q ok foreign early subs ask abn esc s' e : finv s ev -> f_q s = m :: q -> 0 ∉ f_bye s -> 0 ∉ f_bye s' -> jinv s ev ->
  deliver hp policy sync (set_q s q) m ok foreign early subs ask abn esc = Ok (s', e) -> keeps s ev s' e.
Proof.
  intros Hfin Hq Hb Hb' J H. pose proof (fi_rinv _ _ Hfin Hb) as R. pose proof (fi_all _ _ Hfin) as Ha.
  assert (Hb2 : 0 ∉ f_bye (set_q s q)) by done.
  assert (Hmq : m ∈ f_q s) by (rewrite Hq; left).
  assert (Hfree : forall fo ea o s1, match m with MTrigger _ => False | _ => True end -> keeps (set_q s q) ev s1 [] -> allinv False (f_cm s1) ev ->
    manage fo ea s1 o = Ok (s', e) -> match o with OChild _ _ => False | _ => True end -> keeps s ev s' e).
  { intros fo ea o s1 Hm Hk Ha1 H1 Ho. eapply keeps_trans; [by apply (pop_keeps s ev m q)|]. eapply keeps_trans; [exact Hk|]. by eapply manage_keeps'. }
  assert (Hself : keeps (set_q s q) ev (set_q s q) []) by by apply same_keeps.
  assert (Hcalm : forall t, match m with MTrigger _ => False | _ => True end -> bears (set_q s q) t -> keeps s ev t []).
  { intros t Hm B. eapply keeps_then; [by apply (pop_keeps s ev m q)|done]. }
  destruct m; unfold deliver in H; try rewrite (decide_False _ _ Hb2) in H.
  - by eapply (Hfree _ _ _ (set_q s q)).
  - by eapply (Hfree _ _ _ (set_q s q)).
  - destruct (N.eqb_spec c 0) as [->|Hc]; [by eapply (Hfree _ _ _ (set_q s q))|]. injection H as <- <-. apply Hcalm; [done|apply bears_to].
  - destruct (decide _); [|injection H as <- <-; apply Hcalm; [done|apply bears_refl]].
    eapply Hfree; [done| | |exact H|done]; [by apply same_keeps|done].
  - eapply Hfree; [done| | |exact H|done]; [by apply same_keeps|]. by apply allinv_weak with (f_cm s).
  - (* MTrigger *)
    split.
    + intros d Hd Ht. destruct (decide (d = a)) as [->|Hne].
      * destruct (removed_dec a ev) as [Hrm|Hrm]; [right; left; apply removed_app; by left|]. left.
        destruct (h_next _ _ (ai_h _ _ _ Ha) a Hd) as [Hd0 _].
        eapply (on_trigger false false (set_q s q) ev a s' e); eauto. assert (Hac : has_actor (f_cm s) a) by (eapply live_actor; eauto; by apply (r_created _ _ _ R)). done.
      * eapply trig_manage; [exact H|]. destruct Ht as [?|[?|[Hx|?]]]; [by left|right; by left|right; right; left|right; right; by right].
        rewrite Hq in Hx. apply elem_of_cons in Hx as [?|?]; [congruence|done].
    + intros Hp Hs. destruct J as [_ J2]. destruct (J2 Hp) as [Hz _]. destruct (decide (a = 0)) as [->|Hne].
      * right. by eapply (on_trigger0 false false (set_q s q) ev).
      * eapply manage_selfd; [exact H|exact Ha|done|]. eapply pop_selfd; eauto. congruence.
  - injection H as <- <-. apply Hcalm; [done|apply bears_to].
  - destruct (decide _); [|injection H as <- <-; apply Hcalm; [done|apply bears_refl]].
    unfold confirm in H. destruct (manage0 _ _) as [[s1 e1]| |] eqn:H1; try done. cbn in H. injection H as <- <-.
    assert (J1 : keeps s ev s1 e1).
    { eapply keeps_trans; [by apply (pop_keeps s ev (MShutResp c) q)|]. eapply keeps_trans; [|by eapply manage_keeps']. by apply same_keeps. }
    destruct subs; [|done]. eapply keeps_then; [done|apply bears_push].
  - exfalso. destruct (r_to _ _ _ R) as (t & r & Tq & T1 & T2). rewrite Tq in Hmq. rewrite Forall_forall in T1, T2. apply elem_of_app in Hmq as [Hx|Hx]; [by apply T1 in Hx|by apply T2 in Hx].
  - by eapply (Hfree _ _ _ (set_q s q)).
  - destruct (N.eqb_spec c 0) as [->|Hc].
    + injection H as <- <-. exfalso. apply Hb'. cbn. set_solver.
    + injection H as <- <-. apply Hcalm; [done|apply bears_to].
Qed.

Lemma step_keeps s ev o s' e : finv s ev -> orderly s o -> fstep s o = Ok (s', e) -> 0 ∉ f_bye s' -> jinv s ev -> keeps s ev s' e.
Proof.
  intros Hfin Ho H Hb' J. assert (Hb : 0 ∉ f_bye s) by (intros Hb; apply Hb'; by eapply bye_mono).
  pose proof (fi_all _ _ Hfin) as Ha.
  destruct o; cbn [FamilyModel.fstep] in H.
  all: try (exfalso; exact Ho).
  all: try (by eapply manage_keeps'; eauto).
  - destruct (a =? 0).
    + injection H as <- <-. apply bears_keeps. destruct (_ && _); [apply bears_push|apply bears_refl].
    + destruct (_ !! a); injection H as <- <-; apply bears_keeps; [|apply bears_refl]. destruct (_ <? _); [apply bears_from|apply bears_refl].
  - destruct (f_q s) as [|m q] eqn:Hq; [injection H as <- <-; apply bears_keeps, bears_refl|]. by eapply deliver_keeps.
  - destruct (downl s c); injection H as <- <-; apply bears_keeps; [apply bears_refl|]. eapply bears_trans; [apply bears_down|apply bears_handles].
  - destruct (upl s c) as [|m l] eqn:Hl; injection H as <- <-; apply bears_keeps; [apply bears_refl|]. by eapply bears_arrive.
  - destruct (child_ready _ _ _); [|injection H as <- <-; apply bears_keeps, bears_refl]. destruct (ch_initreq _); injection H as <- <-; apply bears_keeps; [|apply bears_refl].
    eapply bears_trans; [apply bears_evolve|apply bears_from].
  - destruct (child_ready _ _ _); injection H as <- <-; apply bears_keeps; [apply bears_evolve|apply bears_refl].
  - destruct (child_ready _ _ _); [|injection H as <- <-; apply bears_keeps, bears_refl]. destruct (decide _); injection H as <- <-; apply bears_keeps; [|apply bears_refl].
    eapply bears_trans; [apply bears_evolve|apply bears_from].
  - injection H as <- <-. destruct (decide _) as [Hc|]; [|apply bears_keeps, bears_refl]. eapply keeps_then; [|apply bears_push]. by apply same_keeps.
  - destruct (_ && _); [|injection H as <- <-; apply bears_keeps, bears_refl]. destruct (manage0 _ _) as [[s1 e1]| |] eqn:H1; try done. cbn in H. injection H as <- <-.
    eapply keeps_then; [by eapply manage_keeps'|]. generalize hp at 1. intros b. destruct b; [apply bears_refl|apply bears_push].
  - apply if_or in H as [H|H]; [|injection H as <- <-; apply bears_keeps, bears_refl]. by eapply manage_keeps'.
  - apply if_or in H as [H|H]; [|injection H as <- <-; apply bears_keeps, bears_refl]. by eapply manage_keeps'.
  - destruct (bool_decide _); [|injection H as <- <-; apply bears_keeps, bears_refl]. by eapply manage_keeps'.
  - destruct (bool_decide _); [|injection H as <- <-; apply bears_keeps, bears_refl]. destruct (manage0 _ _) as [[s1 e1]| |] eqn:H1; try done. cbn in H. injection H as <- <-.
    eapply keeps_then; [|destruct mapping_empty; [apply bears_push|apply bears_refl]]. eapply keeps_trans; [|by eapply manage_keeps']. by apply same_keeps.
  - injection H as <- <-. apply bears_keeps. destruct (bool_decide _); [apply bears_push|apply bears_refl].
Qed.

(** ** The theorems *)
Definition jall (s : fstate) (ev : list cevent) : Prop := finv s ev /\ (0 ∉ f_bye s -> jinv s ev).
Lemma step_all s ev o : jall s ev -> orderly s o -> exists s' e, fstep s o = Ok (s', e) /\ jall s' (ev ++ e).
Proof.
  intros [Hf Hj] Ho. destruct (step_fin hp policy sync s ev o Hf Ho) as (s' & e & H & Hf'). exists s', e. split; [exact H|]. split; [done|].
  intros Hb. eapply step_j; eauto. apply Hj. intros Hx. apply Hb. by eapply bye_mono.
Qed.
Lemma fam_j ops s ev : guarded fstep orderly (finit hp) ops -> run fstep (finit hp) ops = Ok (s, ev) -> jall s ev.
Proof.
  intros Hg H. assert (J0 : jall (finit hp) []) by (split; [apply finv_init|intros _; apply jinv_init]).
  destruct (run_safe_ev fstep orderly jall step_all ops (finit hp) [] J0 Hg) as (s1 & e1 & H1 & Hf). rewrite H in H1. by inversion H1; subst.
Qed.

Lemma settled_infl s m : settled s -> ~ infl s m.
Proof. intros (Hq & Hl & _) [Hx|[c Hx]]; [rewrite Hq in Hx|destruct (Hl c) as [Hu _]; rewrite Hu in Hx]; by apply elem_of_nil in Hx. Qed.

Lemma fam_init ops s ev c : guarded fstep orderly (finit hp) ops -> run fstep (finit hp) ops = Ok (s, ev) -> settled s -> ECreated c ∈ ev -> EShutReq c ∉ ev ->
  EInitReq c ∈ ev /\ (EInitOk c ∈ ev \/ EInitError ∈ ev \/ ESelfShutdown ∈ ev \/
    (c ∈ f_init s /\ ((exists ch, cm_children (f_cm s) !! c = Some ch /\ ch_initreq ch = true) \/ (c ∈ f_foreign s /\ 5 <= rank (cm_state (f_cm s)))))).
Proof.
  intros Hg H Hs Hc Hn. pose proof Hs as (Hq & Hl & Hb). destruct (fam_j ops s ev Hg H) as [Hf Hj]. destruct (Hj Hb) as [J1 _]. destruct (J1 c Hc) as [Hr Hp].
  split; [destruct Hr as [Hx|?]; [rewrite Hq in Hx; by apply elem_of_nil in Hx|done]|].
  destruct Hp as [?|[?|[?|[Ht|[Hx|[Hx|Hx]]]]]]; auto.
  - exfalso. destruct Ht as [?|[Hrm|Hi]]; [done| |by eapply settled_infl]. eapply fam_removed in Hrm; eauto. apply Hn. eapply fam_asked; eauto. eexists. split; [exact Hrm|]. auto.
  - rewrite Hq in Hx. by apply elem_of_nil in Hx.
  - rewrite Hq in Hx. by apply elem_of_nil in Hx.
  - do 3 right. split; [done|]. destruct (settled_child _ _ _ ops s ev c Hg H Hs Hc) as (ch & Hch & Hc0 & P & HU & HD).
    destruct (p_init _ _ _ _ _ P Hx) as [T|[T|[(f & T)|[T1 T2]]]]; [rewrite HD in T; by apply elem_of_nil in T|left; by exists ch|rewrite HU in T; by apply elem_of_nil in T|by right].
Qed.
Lemma fam_self ops s ev : hp = false -> guarded fstep orderly (finit hp) ops -> run fstep (finit hp) ops = Ok (s, ev) -> settled s ->
  ESelfShutdown ∈ ev \/ EEscalate ∈ ev -> 5 <= rank (cm_state (f_cm s)).
Proof.
  intros Hp Hg H Hs Hx. pose proof Hs as (_ & _ & Hb). destruct (fam_j ops s ev Hg H) as [Hf Hj]. destruct (Hj Hb) as [_ J2]. destruct (J2 Hp) as [_ J3].
  destruct (J3 Hx) as [?|?]; [by exfalso; eapply settled_infl|done].
Qed.

(** What is triggered in the middle of a run has happened at its end. *)
Lemma guarded_split o1 : forall s o2 s1 e1, guarded fstep orderly s (o1 ++ o2) -> run fstep s o1 = Ok (s1, e1) -> guarded fstep orderly s o1 /\ guarded fstep orderly s1 o2.
Proof.
  induction o1 as [|o o1 IH]; intros s o2 s1 e1 Hg Hr; cbn in *.
  - by inversion Hr; subst.
  - destruct Hg as [Hok Hg]. destruct (fstep s o) as [[s' e']| |]; cbn in *; [|done..].
    destruct (run fstep s' o1) as [[s2 e2]| |] eqn:Er; cbn in Hr; [|done..]. inversion Hr; subst.
    destruct (IH _ _ _ _ Hg Er). done.
Qed.
Lemma run_bye ops : forall s s' e, run fstep s ops = Ok (s', e) -> 0 ∈ f_bye s -> 0 ∈ f_bye s'.
Proof.
  induction ops as [|o ops IH]; intros s s' e H Hb; cbn in H; [by inversion H; subst|].
  destruct (fstep s o) as [[s1 e1]| |] eqn:H1; try done. cbn in H. destruct (run fstep s1 ops) as [[s2 e2]| |] eqn:H2; try done. cbn in H. injection H as <- <-.
  eapply IH; [exact H2|]. by eapply bye_mono.
Qed.
Lemma run_keeps ops : forall s ev s' e, jall s ev -> guarded fstep orderly s ops -> run fstep s ops = Ok (s', e) -> 0 ∉ f_bye s' -> keeps s ev s' e.
Proof.
  induction ops as [|o ops IH]; intros s ev s' e J Hg H Hb; cbn in H; [injection H as <- <-; apply bears_keeps, bears_refl|].
  destruct Hg as [Ho Hg]. destruct (fstep s o) as [[s1 e1]| |] eqn:H1; try done. cbn in H. destruct (run fstep s1 ops) as [[s2 e2]| |] eqn:H2; try done. cbn in H. injection H as <- <-.
  assert (J1 : jall s1 (ev ++ e1)). { destruct (step_all s ev o J Ho) as (s3 & e3 & H3 & J3). rewrite H1 in H3. by inversion H3; subst. }
  assert (Hb1 : 0 ∉ f_bye s1). { intros Hx. apply Hb. by eapply run_bye. }
  assert (Hb0 : 0 ∉ f_bye s). { intros Hx. apply Hb1. by eapply bye_mono. }
  destruct J as [Hf Hj]. pose proof (step_keeps s ev o s1 e1 Hf Ho H1 Hb1 (Hj Hb0)) as [K1 K2].
  destruct (IH s1 (ev ++ e1) s2 e2 J1 Hg H2 Hb) as [L1 L2]. split; [|auto].
  intros c Hc Ht. rewrite app_assoc. apply L1; [apply elem_of_app; by left|auto].
Qed.
(** A run in which an operation [o] follows [ops1]. *)
Lemma split_run ops1 o ops2 s1 ev1 s2 ev2 : guarded fstep orderly (finit hp) (ops1 ++ o :: ops2) -> run fstep (finit hp) ops1 = Ok (s1, ev1) ->
  run fstep (finit hp) (ops1 ++ o :: ops2) = Ok (s2, ev2) -> 0 ∉ f_bye s2 ->
  jall s1 ev1 /\ exists s3 e3 e4, fstep s1 o = Ok (s3, e3) /\ jall s3 (ev1 ++ e3) /\ ev2 = (ev1 ++ e3) ++ e4 /\ keeps s3 (ev1 ++ e3) s2 e4.
Proof.
  intros Hg H1 H Hb. destruct (guarded_split _ _ _ _ _ Hg H1) as [Hg1 [Ho Hg2]]. pose proof (fam_j ops1 s1 ev1 Hg1 H1) as J1. split; [done|].
  destruct (step_all s1 ev1 o J1 Ho) as (s3 & e3 & H3 & J3). rewrite H3 in Hg2. rewrite run_app, H1 in H. cbn -[run] in H. cbn [run] in H. rewrite H3 in H. cbn in H.
  destruct (run fstep s3 ops2) as [[s4 e4]| |] eqn:H4; try done. cbn in H. injection H as <- <-. exists s3, e3, e4. split_and!; [done|done|by rewrite app_assoc|].
  by eapply run_keeps.
Qed.
Lemma fam_trigger ops1 ops2 s1 ev1 s2 ev2 c st : guarded fstep orderly (finit hp) (ops1 ++ FShutdown c :: ops2) -> run fstep (finit hp) ops1 = Ok (s1, ev1) ->
  ECreated c ∈ ev1 -> state_of s1 c = Some st -> st <> AShuttingDown -> st <> AShutDown ->
  run fstep (finit hp) (ops1 ++ FShutdown c :: ops2) = Ok (s2, ev2) -> settled s2 -> EShutReq c ∈ ev2.
Proof.
  intros Hg H1 Hc Hst Hn1 Hn2 H2 Hs. pose proof Hs as (_ & _ & Hb).
  destruct (split_run _ _ _ _ _ _ _ Hg H1 H2 Hb) as (J1 & s3 & e3 & e4 & H3 & J3 & -> & K & _).
  destruct (h_next _ _ (ai_h _ _ _ (fi_all _ _ (proj1 J1))) c Hc) as [Hc0 _].
  unfold state_of in Hst. destruct (cm_children (f_cm s1) !! c) as [ch|] eqn:Hch; [|done]. cbn in Hst. injection Hst as Hst.
  assert (Hx : fstep s1 (FShutdown c) = Ok (from s1 c [MTrigger c], [])).
  { cbn. destruct (N.eqb_spec c 0); [done|]. rewrite Hch, Hst. by destruct st. }
  rewrite Hx in H3. injection H3 as <- <-. rewrite app_nil_r in *.
  assert (Ht : trig (from s1 c [MTrigger c]) ev1 c).
  { right. right. unfold from, infl. destruct (decide _); cbn; [right; exists c; unfold upl; cbn; rewrite lookup_insert; cbn; apply elem_of_app; right; left|left; apply elem_of_app; right; left]. }
  destruct (K c Hc Ht) as [?|[Hrm|Hi]]; [done| |by exfalso; eapply settled_infl].
  eapply fam_asked; eauto; [apply elem_of_app; by left|]. eapply fam_removed in Hrm; eauto; [|apply elem_of_app; by left]. eexists. split; [exact Hrm|]. auto.
Qed.
Lemma fam_do_shutdown ops1 ops2 s2 ev2 : hp = false -> guarded fstep orderly (finit hp) (ops1 ++ FShutdown 0 :: ops2) ->
  run fstep (finit hp) (ops1 ++ FShutdown 0 :: ops2) = Ok (s2, ev2) -> settled s2 -> 5 <= rank (cm_state (f_cm s2)).
Proof.
  intros Hp Hg H2 Hs. pose proof Hs as (_ & _ & Hb). pose proof H2 as H1. rewrite run_app in H1. destruct (run fstep (finit hp) ops1) as [[s1 ev1]| |] eqn:H0; try done. clear H1.
  destruct (split_run _ _ _ _ _ _ _ Hg H0 H2 Hb) as (J1 & s3 & e3 & e4 & H3 & J3 & -> & _ & K).
  assert (Hsd : selfd s3).
  { cbn in H3. rewrite Hp in H3. cbn in H3. injection H3 as <- <-. destruct (N.ltb_spec (rank (cm_state (f_cm s1))) 5); cbn; [left; left; cbn; apply elem_of_app; right; left|by right]. }
  destruct (K Hp Hsd) as [?|?]; [by exfalso; eapply settled_infl|done].
Qed.
End init.
