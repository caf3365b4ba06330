(** Consequences used by the property file of the life cycle. *)
From stdpp Require Import base list gmap.
From Coq Require Import String.
From Verif Require Import Base Prog ErrorsModel ErrorsProofs LifeModel LifeSpec LifeProofs.
Open Scope N_scope.

Section facts.
Context (n starter : nat) (spawned escalate auto : bool) (ident : string).
Notation step := (lstep n starter spawned escalate auto ident).
Notation reach ops s ev := (run step linit ops = Ok (s, ev)).

Lemma reach_ok ops s ev ev1 x ev2 : reach ops s ev -> ev = ev1 ++ x :: ev2 -> okev n ev1 x.
Proof. intros H E. destruct (reach_linv _ _ _ _ _ _ _ _ _ H) as [_ HG]. exact (HG ev1 x ev2 E). Qed.

(** ** C24 *)
Lemma legal_rank a b : legal a b -> rank a <= rank b.
Proof. destruct a, b; cbn; intros; lia || done. Qed.
Lemma walk_rank o e m : LifeSpec.walk o e m -> rank o <= rank m.
Proof.
  revert o. induction e as [|x e IH]; intros o H; cbn in H; [by subst|].
  destruct x; try (by apply IH). destruct H as (-> & Hl & H). apply legal_rank in Hl. apply IH in H. lia.
Qed.
Lemma edges ops s ev : reach ops s ev -> guarded step life_ok linit ops -> LifeSpec.walk ANew ev (l_state s).
Proof. apply reach_walk. Qed.
Lemma guarded_app {S O E} (st : S -> O -> res (S * list E)) ok s o1 o2 s1 e1 :
  guarded st ok s (o1 ++ o2) -> run st s o1 = Ok (s1, e1) -> guarded st ok s o1 /\ guarded st ok s1 o2.
Proof.
  revert s e1. induction o1 as [|o o1 IH]; intros s e1 Hg Hr; cbn in *.
  - by inversion Hr; subst.
  - destruct Hg as [Hok Hg]. destruct (st s o) as [[s' e']| |]; cbn in *; [|done..].
    destruct (run st s' o1) as [[s2 e2]| |] eqn:Er; cbn in Hr; [|done..]. inversion Hr; subst.
    destruct (IH _ _ Hg Er). done.
Qed.
Lemma steps_walk s ev s' e ops' : linv n starter s ev -> guarded step life_ok s ops' -> run step s ops' = Ok (s', e) ->
  LifeSpec.walk (l_state s) e (l_state s').
Proof.
  revert s ev e. induction ops' as [|o r IH]; intros s ev e HI HG Hr; cbn in Hr; [by inversion Hr; subst|].
  destruct HG as [Hok HG]. destruct (step s o) as [[s1 e1]| |] eqn:Es; cbn in Hr; [|done..]. destruct (run step s1 r) as [[s2 e2]| |] eqn:Er; cbn in Hr; [|done..].
  inversion Hr; subst. destruct (step_ok _ _ _ _ _ _ _ _ _ _ _ HI Es) as (H1 & H2 & H3). apply (walk_app _ _ (l_state s1)); [auto|]. eapply IH; eauto.
Qed.
Lemma monotone ops1 ops2 s1 s2 ev1 ev2 : reach ops1 s1 ev1 -> reach (ops1 ++ ops2) s2 ev2 -> guarded step life_ok linit (ops1 ++ ops2) ->
  rank (l_state s1) <= rank (l_state s2).
Proof.
  intros H1 H2 HG. destruct (guarded_app _ _ _ _ _ _ _ HG H1) as [_ HG2].
  rewrite run_app, H1 in H2. cbn in H2. destruct (run step s1 ops2) as [[s e]| |] eqn:Er; cbn in H2; [|done..]. inversion H2; subst.
  eapply walk_rank, steps_walk; [|done|done]. eapply reach_linv; eauto.
Qed.
Lemma start_ignored s : l_state s <> AInitialized -> step s OStartMsg = Ok (s, []).
Proof. intros H. cbn. rewrite bool_decide_eq_false_2 by done. by destruct (idle s). Qed.
(** A shut down actor stays so. *)
Lemma down_final ops1 ops2 s1 s2 ev1 ev2 : reach ops1 s1 ev1 -> reach (ops1 ++ ops2) s2 ev2 -> guarded step life_ok linit (ops1 ++ ops2) ->
  l_state s1 = AShutDown -> l_state s2 = AShutDown.
Proof. intros H1 H2 HG E. pose proof (monotone _ _ _ _ _ _ H1 H2 HG) as Hr. rewrite E in Hr. cbn in Hr. destruct (l_state s2); cbn in Hr; lia || done. Qed.

(** ** C25, C26 *)
Lemma ask_ok ops s ev ev1 k f p ev2 : reach ops s ev -> ev = ev1 ++ EAsk k f p :: ev2 ->
  wants k p ev1 = true /\ (p < n)%nat /\ (forall q, earlier n k q p -> passed k f q ev1) /\ (forall q, EVote k f q false ∉ ev1).
Proof. intros H E. exact (reach_ok _ _ _ _ _ _ H E). Qed.
Lemma skip_ok ops s ev ev1 k f p ev2 : reach ops s ev -> ev = ev1 ++ ESkip k f p :: ev2 -> wants k p ev1 = false.
Proof. intros H E. exact (reach_ok _ _ _ _ _ _ H E). Qed.
Lemma vote_asked ops s ev ev1 k f p b ev2 : reach ops s ev -> ev = ev1 ++ EVote k f p b :: ev2 -> EAsk k f p ∈ ev1.
Proof. intros H E. exact (reach_ok _ _ _ _ _ _ H E). Qed.
Lemma init_once ops s ev : reach ops s ev -> (cnt is_initok ev <= 1)%nat.
Proof. intros H. destruct (reach_linv _ _ _ _ _ _ _ _ _ H) as [HI _]. apply (i_once _ _ _ _ HI). Qed.
Lemma init_all ops s ev ev1 f r ev2 : reach ops s ev -> ev = ev1 ++ EInitOk f r :: ev2 ->
  EInitMsg r ∈ ev1 /\ (forall q, (q < n)%nat -> passed KInit f q ev1) /\ (forall q, EVote KInit f q false ∉ ev1).
Proof.
  intros H E. destruct (reach_ok _ _ _ _ _ _ H E) as ((ev' & ->) & Hm & _).
  rewrite <-(assoc_L (++)) in E. cbn in E. destruct (reach_ok _ _ _ _ _ _ H E) as [H1 H2]. split_and!; [done| |].
  - intros q Hq. by apply passed_app, H1.
  - intros q Hin. apply elem_of_app in Hin as [Hin|Hin]; [by apply (H2 q)|]. by apply elem_of_list_singleton in Hin.
Qed.
Lemma shut_all ops s ev ev1 f r ev2 : reach ops s ev -> ev = ev1 ++ EShutOk f r :: ev2 ->
  EShutMsg r ∈ ev1 /\ (forall q, (q < n)%nat -> passed KShut f q ev1) /\ (forall q, EVote KShut f q false ∉ ev1).
Proof.
  intros H E. destruct (reach_ok _ _ _ _ _ _ H E) as ((ev' & ->) & Hm & _).
  rewrite <-(assoc_L (++)) in E. cbn in E. destruct (reach_ok _ _ _ _ _ _ H E) as [H1 H2]. split_and!; [done| |].
  - intros q Hq. by apply passed_app, H1.
  - intros q Hin. apply elem_of_app in Hin as [Hin|Hin]; [by apply (H2 q)|]. by apply elem_of_list_singleton in Hin.
Qed.
Lemma down_all ops s ev ev1 o ev2 : reach ops s ev -> ev = ev1 ++ EState o AShutDown :: ev2 ->
  exists f, (forall q, (q < n)%nat -> passed KShut f q ev1) /\ (forall q, EVote KShut f q false ∉ ev1).
Proof.
  intros H E. pose proof (reach_ok _ _ _ _ _ _ H E) as Ho. assert (exists ev' f e, ev1 = ev' ++ EFinish KShut f :: e /\ (e = [] \/ exists r, e = [EShutOk f r])) as (ev' & f & e & -> & He) by (by destruct o).
  exists f. rewrite <-(assoc_L (++)) in E. cbn in E. destruct (reach_ok _ _ _ _ _ _ H E) as [H1 H2]. split.
  - intros q Hq. by apply passed_app, H1.
  - intros q Hin. apply elem_of_app in Hin as [Hin|Hin]; [by apply (H2 q)|]. apply elem_of_cons in Hin as [?|Hin]; [done|].
    destruct He as [-> |[r ->]]; [by apply elem_of_nil in Hin|by apply elem_of_list_singleton in Hin].
Qed.
Lemma initialized_confirmed ops s ev ev1 o ev2 : reach ops s ev -> ev = ev1 ++ EState o AInitialized :: ev2 ->
  exists ev' f r, ev1 = ev' ++ [EInitOk f r].
Proof. intros H E. pose proof (reach_ok _ _ _ _ _ _ H E) as Ho. by destruct o. Qed.
Lemma shut_counts ops s ev : reach ops s ev -> (cnt is_shutok ev <= cnt is_shutmsg ev)%nat.
Proof. intros H. destruct (reach_linv _ _ _ _ _ _ _ _ _ H) as [HI _]. pose proof (i_shuts _ _ _ _ HI). lia. Qed.

(** Not more answers to init requests, of either sort, than requests. *)
Definition held_init (s : lstate) : nat := match l_ireq s with Some _ => 1 | None => 0 end.
Definition answered_init (s s' : lstate) (e : list levent) : Prop := (cnt is_initans e + held_init s' <= held_init s + cnt is_initmsg e)%nat.
Lemma cnt_skips P k f l : (forall p, P (ESkip k f p) = false) -> cnt P (ESkip k f <$> l) = 0%nat.
Proof. intros HP. induction l as [|p l IH]; [done|]. unfold cnt in *. cbn. by rewrite HP. Qed.
Lemma loop_answered s k f l s' e : loop starter s k f l = Ok (s', e) -> answered_init s s' e.
Proof.
  unfold loop. destruct (scan _ l) as [sk [p|]].
  - intros H. assert (E : l_ireq s' = l_ireq s /\ cnt is_initans e = 0%nat).
    { destruct (decide _); injection H as <- <-; by rewrite cnt_app, cnt_skips. }
    destruct E as [E1 E2]. unfold answered_init, held_init. rewrite E1, E2. lia.
  - destruct (finish _ k f) as [[s1 e1]| |] eqn:Ef; cbn; [|done..]. intros H. injection H as <- <-. unfold answered_init. rewrite !cnt_app, !cnt_skips by done.
    change (cnt is_initans (EFinish k f :: e1)) with (cnt is_initans e1). change (cnt is_initmsg (EFinish k f :: e1)) with (cnt is_initmsg e1).
    destruct k; cbn in Ef.
    + unfold init_finish in Ef. cbn [l_ireq set_prog] in Ef. unfold held_init. destruct (l_ireq s) as [r|] eqn:E; [|done]. injection Ef as <- <-. cbn. lia.
    + unfold shutdown_finish in Ef. destruct (bool_decide _); [|done]. injection Ef as <- <-. rewrite !cnt_app. unfold held_init. cbn. destruct (l_sreq s); cbn; lia.
    + injection Ef as <- <-. unfold held_init. cbn. lia.
Qed.
Lemma begin_answered s k s' e : begin n starter s k = Ok (s', e) -> answered_init s s' e.
Proof.
  unfold begin. destruct (loop _ _ _ _) as [[s1 e1]| |] eqn:El; cbn; [|done..]. intros H. injection H as <- <-. apply loop_answered in El.
  unfold answered_init in *. unfold held_init in *. cbn in *. done.
Qed.
Lemma step_answered s o s' e : step s o = Ok (s', e) -> answered_init s s' e.
Proof.
  assert (HS : forall s1 s2 e1, l_ireq s2 = l_ireq s1 -> cnt is_initans e1 = 0%nat -> answered_init s1 s2 e1).
  { intros s1 s2 e1 E1 E2. unfold answered_init, held_init. rewrite E1, E2. lia. }
  assert (HC : forall s1 s2 e1, shutdown_continue n starter s1 = Ok (s2, e1) -> answered_init s1 s2 e1).
  { intros s1 s2 e1. unfold shutdown_continue. destruct (bool_decide _); [|done]. apply begin_answered. }
  assert (HA : forall s1 r s2 e1, assign_reason s1 r = (s2, e1) -> l_ireq s2 = l_ireq s1 /\ cnt is_initans e1 = 0%nat).
  { intros s1 r s2 e1. unfold assign_reason. destruct (l_reason s1), r; intros H; by injection H as <- <-. }
  assert (HD : forall s1 s2 e1, shutdown_start spawned escalate auto ident s1 = (s2, e1) -> l_ireq s2 = l_ireq s1 /\ cnt is_initans e1 = 0%nat).
  { intros s1 s2 e1. unfold shutdown_start. intros H. injection H as <- <-. split; [done|]. destruct spawned; [done|]. destruct (l_reason s1); [destruct (escalate && _)|]; by destruct auto. }
  destruct o; cbn -[shutdown_start shutdown_continue assign_reason init_continue begin vote]; intros H.
  - destruct (bool_decide _); injection H as <- <-; by apply HS.
  - injection H as <- <-. by apply HS.
  - destruct (idle s); [|injection H as <- <-; by apply HS].
    assert (HM : forall s2 e2, answered_init (set_ireq s (Some r)) s2 e2 -> answered_init s s2 (EInitMsg r :: e2)).
    { intros s2 e2. unfold answered_init. change (cnt is_initans (EInitMsg r :: e2)) with (cnt is_initans e2). change (cnt is_initmsg (EInitMsg r :: e2)) with (S (cnt is_initmsg e2)).
      unfold held_init. cbn. destruct (l_ireq s); lia. }
    destruct (bool_decide _).
    + destruct (init_continue _ _ _) as [[s2 e2]| |] eqn:Ei; cbn in H; [|done..]. injection H as <- <-. apply HM. unfold init_continue in Ei. destruct (_ && _); [|done]. by apply begin_answered in Ei.
    + injection H as <- <-. apply HM. by apply HS.
  - destruct (l_ireq s) as [r|] eqn:E; injection H as <- <-; [|by apply HS]. unfold answered_init, held_init. rewrite E. cbn. lia.
  - destruct k.
    + unfold init_continue in H. destruct (_ && _); [|done]. by apply begin_answered in H.
    + by apply HC.
    + injection H as <- <-. by apply HS.
  - unfold vote in H. destruct (l_stack s) as [|[k f p] rest]; [injection H as <- <-; by apply HS|].
    destruct (b || _); [|injection H as <- <-; by apply HS].
    destruct (loop _ _ _ _ _) as [[s2 e2]| |] eqn:El; cbn in H; [|done..]. injection H as <- <-. apply loop_answered in El. unfold answered_init in *. unfold held_init in *. cbn in *. done.
  - destruct (idle s); [|injection H as <- <-; by apply HS].
    destruct (assign_reason _ reason) as [s1 e1] eqn:Ea. destruct (shutdown_start _ _ _ _ s1) as [s2 e2] eqn:Es.
    destruct (shutdown_continue n starter s2) as [[s3 e3]| |] eqn:Ec; cbn in H; [|done..]. injection H as <- <-.
    apply HA in Ea as [A1 A2]. apply HD in Es as [B1 B2]. apply HC in Ec. cbn in A1. unfold answered_init in *.
    change (cnt is_initans (EShutMsg r :: e1 ++ e2 ++ e3)) with (cnt is_initans (e1 ++ e2 ++ e3)). change (cnt is_initmsg (EShutMsg r :: e1 ++ e2 ++ e3)) with (cnt is_initmsg (e1 ++ e2 ++ e3)).
    rewrite !cnt_app, A2, B2. unfold held_init in *. rewrite B1, A1 in Ec. lia.
  - destruct (idle s); [|injection H as <- <-; by apply HS]. destruct (bool_decide _); [injection H as <- <-; by apply HS|].
    destruct (assign_reason _ reason) as [s1 e1] eqn:Ea. destruct (shutdown_start _ _ _ _ s1) as [s2 e2] eqn:Es. injection H as <- <-.
    apply HA in Ea as [A1 A2]. apply HD in Es as [B1 B2]. apply HS; [congruence|]. by rewrite cnt_app, A2, B2.
  - destruct (idle s); [|injection H as <- <-; by apply HS]. destruct (bool_decide _); [|injection H as <- <-; by apply HS]. by apply begin_answered in H.
  - injection H as <- <-. by apply HS.
Qed.
Lemma init_counts ops s ev : reach ops s ev -> (cnt is_initans ev <= cnt is_initmsg ev)%nat.
Proof.
  intros H. assert (HH : (cnt is_initans ([] ++ ev) + held_init s <= cnt is_initmsg ([] ++ ev))%nat); [|rewrite app_nil_l in HH; lia].
  refine (run_inv_ev step (fun _ _ => True) (fun s ev => (cnt is_initans ev + held_init s <= cnt is_initmsg ev)%nat) _ _ _ _ _ _ _ (guarded_true _ _ _) H); [|done].
  clear. intros s ev o s' e HI _ Hs. apply step_answered in Hs. unfold answered_init in Hs. rewrite !cnt_app. lia.
Qed.

(** What a loop can do. *)
Definition loopev (x : levent) : Prop :=
  match x with
  | ELoop _ _ | ESkip _ _ _ | EAsk _ _ _ | EState _ _ | EInitOk _ _ | EShutOk _ _ | EFinish _ _ => True
  | EVote _ _ _ _ | EReact _ _ false => True
  | _ => False
  end.
Lemma loop_events s k f l s' e : loop starter s k f l = Ok (s', e) -> Forall loopev e /\ l_reason s' = l_reason s.
Proof.
  intros H. unfold loop in H. destruct (scan (l_want s k) l) as [sk q]. 
  assert (Hs : Forall loopev (ESkip k f <$> sk)) by (apply Forall_fmap, Forall_true; done).
  destruct q as [p|].
  - destruct (decide _); inversion H; subst; (split; [apply Forall_app; split; [done|]; repeat constructor|done]).
  - destruct (finish _ k f) as [[s1 e1]| |] eqn:Ef; cbn in H; [|done..]. inversion H; subst; clear H.
    assert (Forall loopev e1 /\ l_reason s' = l_reason s) as [He Hr].
    { destruct k; cbn in Ef.
      - unfold init_finish in Ef. cbn in Ef. destruct (l_ireq s); [|done]. inversion Ef; subst. split; [repeat constructor|done].
      - unfold shutdown_finish in Ef. cbn in Ef. destruct (bool_decide _); [|done]. inversion Ef; subst. split; [|done].
        apply Forall_app. split; [destruct (l_sreq s)|]; repeat constructor.
      - inversion Ef; subst. split; [constructor|done]. }
    split; [|done]. apply Forall_app. split; [done|]. by constructor.
Qed.
Lemma begin_events s k s' e : begin n starter s k = Ok (s', e) -> Forall loopev e /\ l_reason s' = l_reason s.
Proof.
  unfold begin. intros H. destruct (loop _ _ _ _ _) as [[s2 e2]| |] eqn:El; cbn in H; [|done..]. inversion H; subst.
  apply loop_events in El as [H1 H2]. split; [by constructor|done].
Qed.
Lemma vote_events s b s' e : vote n starter s b = Ok (s', e) -> Forall loopev e /\ l_reason s' = l_reason s.
Proof.
  unfold vote. intros H. destruct (l_stack s) as [|[k f p] st]; [inversion H; subst; split; [constructor|done]|].
  destruct (b || _).
  - destruct (loop _ _ _ _ _) as [[s2 e2]| |] eqn:El; cbn in H; [|done..]. inversion H; subst.
    apply loop_events in El as [H1 H2]. split; [by repeat constructor|done].
  - inversion H; subst. split; [repeat constructor|done].
Qed.
Lemma init_continue_events s s' e : init_continue n starter s = Ok (s', e) -> Forall loopev e /\ l_reason s' = l_reason s.
Proof. unfold init_continue. destruct (_ && _); [|done]. apply begin_events. Qed.
Lemma shutdown_continue_events s s' e : shutdown_continue n starter s = Ok (s', e) -> Forall loopev e /\ l_reason s' = l_reason s.
Proof. unfold shutdown_continue. destruct (bool_decide _); [|done]. apply begin_events. Qed.

Definition starts_shutdown (o : lop) : bool := match o with OShutMsg _ _ | OShutSelf _ => true | _ => false end.
Lemma step_events s o s' e : step s o = Ok (s', e) -> starts_shutdown o = false ->
  l_reason s' = l_reason s /\ Forall (fun x => match x with EShutMsg _ | EAssign _ | EEscalate _ | EAutoDown _ => False | _ => True end) e.
Proof.
  intros H Ho.
  assert (Hw : Forall loopev e -> Forall (fun x => match x with EShutMsg _ | EAssign _ | EEscalate _ | EAutoDown _ => False | _ => True end) e).
  { intros HF. eapply Forall_impl; [exact HF|]. intros []; done. }
  assert (Hnop : Ok (s, []) = Ok (s', e) -> l_reason s' = l_reason s /\ Forall (fun x => match x with EShutMsg _ | EAssign _ | EEscalate _ | EAutoDown _ => False | _ => True end) e).
  { intros [= <- <-]. done. }
  destruct o; cbn -[shutdown_start assign_reason shutdown_continue init_continue begin vote react] in H; try done.
  - destruct (bool_decide _); [|by apply Hnop]. inversion H; subst. split; [done|by repeat constructor].
  - inversion H; subst. split; [done|by repeat constructor].
  - destruct (idle s); [|by apply Hnop]. destruct (bool_decide _).
    + destruct (init_continue _ _ _) as [[s2 e2]| |] eqn:Ec; cbn in H; [|done..]. inversion H; subst.
      apply init_continue_events in Ec as [H1 H2]. split; [done|]. constructor; [done|]. eapply Forall_impl; [exact H1|]. intros []; done.
    + inversion H; subst. split; [done|by repeat constructor].
  - destruct (l_ireq s); [|by apply Hnop]. inversion H; subst. split; [done|by repeat constructor].
  - destruct k; [apply init_continue_events in H as [? ?]; auto|apply shutdown_continue_events in H as [? ?]; auto|by apply Hnop].
  - apply vote_events in H as [? ?]; auto.
  - destruct (idle s); [|by apply Hnop]. destruct (bool_decide _); [|by apply Hnop]. apply begin_events in H as [? ?]; auto.
  - inversion H; subst. split; [done|constructor].
Qed.

(** The step of a shutdown request, taken apart. *)
Lemma shutmsg_inv s r reason s' e : step s (OShutMsg r reason) = Ok (s', e) -> idle s = true ->
  exists e3, e = EShutMsg r :: snd (assign_reason s reason) ++ snd (shutdown_start spawned escalate auto ident (fst (assign_reason s reason))) ++ e3 /\
    Forall loopev e3 /\ l_reason s' = l_reason (fst (assign_reason s reason)).
Proof.
  intros H Hi. cbn -[shutdown_start assign_reason shutdown_continue] in H. rewrite Hi in H.
  destruct (assign_reason (set_sreq s (Some r)) reason) as [s1 e1] eqn:Ea. destruct (shutdown_start _ _ _ _ s1) as [s2 e2] eqn:Es.
  destruct (shutdown_continue n starter s2) as [[s3 e3]| |] eqn:Ec; cbn in H; [|done..]. inversion H; subst; clear H.
  apply shutdown_continue_events in Ec as [H1 H2]. exists e3.
  assert (Hr : l_reason s2 = l_reason s1) by (unfold shutdown_start in Es; by inversion Es).
  unfold assign_reason in *. cbn in Ea. unfold shutdown_start in *. destruct (l_reason s) eqn:Er; [|destruct reason]; inversion Ea; subst; cbn in *; rewrite ?Er in *; inversion Es; subst; split_and!; try done; congruence.
Qed.
Lemma shutself_inv s reason s' e : step s (OShutSelf reason) = Ok (s', e) -> idle s = true -> l_state s <> AShuttingDown ->
  e = snd (assign_reason s reason) ++ snd (shutdown_start spawned escalate auto ident (fst (assign_reason s reason))) /\
    l_reason s' = l_reason (fst (assign_reason s reason)).
Proof.
  intros H Hi Hs. cbn -[shutdown_start assign_reason shutdown_continue] in H. rewrite Hi, bool_decide_eq_false_2 in H by done.
  destruct (assign_reason s reason) as [s1 e1] eqn:Ea. destruct (shutdown_start _ _ _ _ s1) as [s2 e2] eqn:Es. inversion H; subst. cbn [fst snd].
  rewrite Es. split; [done|]. unfold shutdown_start in Es. by inversion Es.
Qed.

(** ** C27 *)
Lemma assign_keeps s reason r : l_reason s = Some r -> assign_reason s reason = (s, []).
Proof. intros H. unfold assign_reason. by rewrite H. Qed.
Lemma step_reason s o s' e r : step s o = Ok (s', e) -> l_reason s = Some r -> l_reason s' = Some r.
Proof.
  intros H Hr. destruct (starts_shutdown o) eqn:Eo; [|apply step_events in H as [-> _]; done].
  destruct o; try done.
  - destruct (idle s) eqn:Ei; [|cbn in H; rewrite Ei in H; by inversion H; subst].
    destruct (shutmsg_inv _ _ _ _ _ H Ei) as (e3 & _ & _ & ->). by rewrite (assign_keeps _ _ _ Hr).
  - destruct (idle s) eqn:Ei; [|cbn in H; rewrite Ei in H; by inversion H; subst].
    destruct (decide (l_state s = AShuttingDown)) as [E|E]; [cbn in H; rewrite Ei, bool_decide_eq_true_2 in H by done; by inversion H; subst|].
    destruct (shutself_inv _ _ _ _ H Ei E) as (_ & ->). by rewrite (assign_keeps _ _ _ Hr).
Qed.
Lemma reason_first ops1 ops2 s1 s2 ev1 ev2 r : reach ops1 s1 ev1 -> reach (ops1 ++ ops2) s2 ev2 -> l_reason s1 = Some r -> l_reason s2 = Some r.
Proof.
  intros H1 H2 Hr. rewrite run_app, H1 in H2. cbn in H2. destruct (run step s1 ops2) as [[s e]| |] eqn:Er; cbn in H2; [|done..]. inversion H2; subst.
  apply (run_inv _ (fun s => l_reason s = Some r) ltac:(intros; eapply step_reason; eauto) _ _ _ _ Hr Er).
Qed.
(** The reason is the one of the first request which brought one. *)
Lemma reason_taken s rq reason s' e : step s (OShutMsg rq (Some reason)) = Ok (s', e) -> idle s = true -> l_reason s = None -> l_reason s' = Some reason.
Proof. intros H Hi Hn. destruct (shutmsg_inv _ _ _ _ _ H Hi) as (e3 & _ & _ & ->). unfold assign_reason. by rewrite Hn. Qed.

(** ** C28 *)
Definition final_reason (s : lstate) (reason : option err) : option err :=
  match l_reason s with Some r => Some r | None => reason end.
Lemma assign_final s reason : l_reason (fst (assign_reason s reason)) = final_reason s reason.
Proof. unfold assign_reason, final_reason. destruct (l_reason s) eqn:E; [done|]. by destruct reason. Qed.
Lemma sstart_events s x : x ∈ snd (shutdown_start spawned escalate auto ident s) ->
  match x with
  | EEscalate y => spawned = false /\ escalate = true /\ exists r, l_reason s = Some r /\ ec_true (e_ec (root r)) = true /\
      y = make_error ident (mk_error failure_escalation) (Some r) None
  | EAutoDown y => spawned = false /\ auto = true /\ y = make_error ident (mk_shutdown child_down) (l_reason s) None
  | EState _ _ => True
  | _ => False
  end.
Proof.
  unfold shutdown_start. cbn. intros Hx. apply elem_of_cons in Hx as [->|Hx]; [done|]. destruct spawned; [by apply elem_of_nil in Hx|].
  apply elem_of_app in Hx as [Hx|Hx].
  - destruct (l_reason s) as [r|]; [|by apply elem_of_nil in Hx]. destruct (escalate && _) eqn:E; [|by apply elem_of_nil in Hx].
    apply andb_prop in E as [E1 E2]. apply elem_of_list_singleton in Hx as ->. eauto 10.
  - destruct auto; [|by apply elem_of_nil in Hx]. by apply elem_of_list_singleton in Hx as ->.
Qed.
Lemma sstart_escalates s r : spawned = false -> escalate = true -> l_reason s = Some r -> ec_true (e_ec (root r)) = true ->
  EEscalate (make_error ident (mk_error failure_escalation) (Some r) None) ∈ snd (shutdown_start spawned escalate auto ident s).
Proof. unfold shutdown_start. intros -> -> -> E. cbn. rewrite E. cbn. right. left. Qed.
Lemma sstart_autos s : spawned = false -> auto = true -> 
  EAutoDown (make_error ident (mk_shutdown child_down) (l_reason s) None) ∈ snd (shutdown_start spawned escalate auto ident s).
Proof. unfold shutdown_start. intros -> ->. cbn. right. apply elem_of_app. right. left. Qed.

(** Does the operation begin the shutdown in [s]? *)
Definition begins (s : lstate) (o : lop) : option (option err) :=
  match o with
  | OShutMsg _ reason => if idle s then Some reason else None
  | OShutSelf reason => if idle s && negb (bool_decide (l_state s = AShuttingDown)) then Some reason else None
  | _ => None
  end.
Lemma begins_events s o s' e reason : step s o = Ok (s', e) -> begins s o = Some reason ->
  forall x, match x with EEscalate _ | EAutoDown _ => True | _ => False end ->
  x ∈ e <-> x ∈ snd (shutdown_start spawned escalate auto ident (fst (assign_reason s reason))).
Proof.
  intros H Hb x Hx.
  assert (Ha : x ∉ snd (assign_reason s reason)).
  { unfold assign_reason. intros Hin. destruct (l_reason s); [by apply elem_of_nil in Hin|]. destruct reason; [|by apply elem_of_nil in Hin]. apply elem_of_list_singleton in Hin as ->. done. }
  destruct o; try done; cbn in Hb.
  - destruct (idle s) eqn:Ei; [|done]. injection Hb as ->. destruct (shutmsg_inv _ _ _ _ _ H Ei) as (e3 & -> & HF & _).
    rewrite elem_of_cons, !elem_of_app. split; [|tauto]. intros [->|[?|[?|Hin]]]; try done. rewrite Forall_forall in HF. specialize (HF _ Hin). by destruct x.
  - destruct (idle s) eqn:Ei; [|done]. case_bool_decide as Hs; [done|]. injection Hb as ->. destruct (shutself_inv _ _ _ _ H Ei Hs) as (-> & _).
    rewrite !elem_of_app. tauto.
Qed.
Lemma begins_none s o s' e : step s o = Ok (s', e) -> begins s o = None -> forall y, EEscalate y ∉ e /\ EAutoDown y ∉ e.
Proof.
  intros H Hb y. destruct (starts_shutdown o) eqn:Eo.
  - destruct o; try done; cbn in Hb, H.
    + destruct (idle s); [done|]. inversion H; subst. split; apply not_elem_of_nil.
    + destruct (idle s); [|inversion H; subst; split; apply not_elem_of_nil]. destruct (bool_decide _); [|done]. inversion H; subst. split; apply not_elem_of_nil.
  - apply step_events in H as [_ HF]; [|done]. rewrite Forall_forall in HF. split; intros Hin; by specialize (HF _ Hin).
Qed.

Lemma escalate_iff s o s' e reason y : step s o = Ok (s', e) -> begins s o = Some reason ->
  EEscalate y ∈ e <->
  (spawned = false /\ escalate = true /\ exists r, final_reason s reason = Some r /\ ec_true (e_ec (root r)) = true /\
    y = make_error ident (mk_error failure_escalation) (Some r) None).
Proof.
  intros H Hb. rewrite (begins_events _ _ _ _ _ H Hb (EEscalate y) ltac:(done)). split.
  - intros Hin. apply sstart_events in Hin. cbn in Hin. by rewrite assign_final in Hin.
  - intros (H1 & H2 & r & H3 & H4 & ->). apply sstart_escalates; try done. by rewrite assign_final.
Qed.
Lemma auto_iff s o s' e reason y : step s o = Ok (s', e) -> begins s o = Some reason ->
  EAutoDown y ∈ e <-> (spawned = false /\ auto = true /\ y = make_error ident (mk_shutdown child_down) (final_reason s reason) None).
Proof.
  intros H Hb. rewrite (begins_events _ _ _ _ _ H Hb (EAutoDown y) ltac:(done)). split.
  - intros Hin. apply sstart_events in Hin. cbn in Hin. by rewrite assign_final in Hin.
  - intros (H1 & H2 & ->). rewrite <-assign_final. by apply sstart_autos.
Qed.

(** ** One answer, when asked at most once *)
Lemma begin_rank s k s' e ev : linv n starter s ev -> l_state s = AShuttingDown -> k = KShut -> begin n starter s k = Ok (s', e) -> 5 <= rank (l_state s').
Proof.
  intros HI Hs -> H. destruct (begin_ok _ _ _ _ KShut _ _ HI ltac:(cbn; by left) ltac:(done) ltac:(done) H) as (_ & _ & Hw).
  apply walk_rank in Hw. rewrite Hs in Hw. cbn in Hw. lia.
Qed.
Lemma guarded_shutmsgs ops s ev : reach ops s ev -> guarded step life_ok linit ops -> (cnt is_shutmsg ev <= 1)%nat.
Proof.
  intros H HG.
  assert (HH : linv n starter s ([] ++ ev) /\ (cnt is_shutmsg ([] ++ ev) <= 1)%nat /\ (rank (l_state s) < 5 -> cnt is_shutmsg ([] ++ ev) = 0%nat)).
  { refine (run_inv_ev step life_ok (fun s ev => linv n starter s ev /\ (cnt is_shutmsg ev <= 1)%nat /\ (rank (l_state s) < 5 -> cnt is_shutmsg ev = 0%nat)) _ _ _ _ _ _ _ HG H).
    2:{ split; [apply linv_init|]. split; [cbn; lia|done]. }
    clear. intros s ev o s' e (HI & H1 & H2) Hok Hs. destruct (step_ok _ _ _ _ _ _ _ _ _ _ _ HI Hs) as (_ & HI' & Hw). split; [done|].
    specialize (Hw Hok). apply walk_rank in Hw. rewrite cnt_app.
    assert (Hq : forall e, Forall (fun x => is_shutmsg x = false) e -> cnt is_shutmsg e = 0%nat).
    { clear. intros e HF. unfold cnt. induction HF as [|x e Hx HF IH]; [done|]. cbn. by rewrite Hx. }
    destruct (starts_shutdown o) eqn:Eo.
    - destruct o; try done.
      + destruct (idle s) eqn:Ei.
        2:{ cbn in Hs. rewrite Ei in Hs. inversion Hs; subst. rewrite Nat.add_0_r. done. }
        destruct (shutmsg_inv _ _ _ _ _ Hs Ei) as (e3 & -> & HF & _). cbn in Hok. specialize (H2 Hok).
        assert (Hz : cnt is_shutmsg (snd (assign_reason s reason) ++ snd (shutdown_start spawned escalate auto ident (fst (assign_reason s reason))) ++ e3) = 0%nat).
        { apply Hq. rewrite !Forall_app. split_and!.
          - unfold assign_reason. destruct (l_reason s); [constructor|]. destruct reason; repeat constructor.
          - apply Forall_forall. intros x Hx. apply sstart_events in Hx. by destruct x.
          - eapply Forall_impl; [exact HF|]. intros []; done. }
        match goal with |- context [cnt is_shutmsg (EShutMsg r :: ?l)] => replace (cnt is_shutmsg (EShutMsg r :: l)) with (S (cnt is_shutmsg l)) by done end.
        rewrite Hz. split; [lia|]. intros Hr. exfalso.
        (* the state is at least SHUTTING_DOWN *)
        cbn -[shutdown_start assign_reason shutdown_continue] in Hs. rewrite Ei in Hs.
        destruct (assign_reason (set_sreq s (Some r)) reason) as [s1 e1] eqn:Ea. destruct (shutdown_start spawned escalate auto ident s1) as [s2 e2] eqn:Es.
        destruct (shutdown_continue n starter s2) as [[s3 e3']| |] eqn:Ec; cbn in Hs; [|done..]. inversion Hs; subst.
        apply idle_nil in Ei.
        destruct (assign_ok _ _ _ _ _ _ _ (linv_sreq _ _ _ _ r HI) Ea) as (_ & A2 & _ & A4 & _). cbn in A4.
        destruct (shutdown_start_ok _ _ _ _ _ _ _ _ _ _ A2 ltac:(congruence) Es) as (_ & B2 & _ & B4).
        unfold shutdown_continue in Ec. destruct (bool_decide _); [|done]. pose proof (begin_rank _ _ _ _ _ B2 B4 eq_refl Ec). lia.
      + assert (Hz : cnt is_shutmsg e = 0%nat).
        { destruct (idle s) eqn:Ei; [|cbn in Hs; rewrite Ei in Hs; by inversion Hs; subst].
          destruct (decide (l_state s = AShuttingDown)) as [E|E]; [cbn in Hs; rewrite Ei, bool_decide_eq_true_2 in Hs by done; by inversion Hs; subst|].
          destruct (shutself_inv _ _ _ _ Hs Ei E) as (-> & _). apply Hq. rewrite !Forall_app. split_and!.
          - unfold assign_reason. destruct (l_reason s); [constructor|]. destruct reason; repeat constructor.
          - apply Forall_forall. intros x Hx. apply sstart_events in Hx. by destruct x. }
        rewrite Hz, Nat.add_0_r. split; [done|]. intros Hr. apply H2. lia.
    - apply step_events in Hs as [_ HF]; [|done]. rewrite (Hq e), Nat.add_0_r.
      + split; [done|]. intros Hr. apply H2. lia.
      + eapply Forall_impl; [exact HF|]. intros []; done. }
  apply HH.
Qed.
Lemma shut_once ops s ev : reach ops s ev -> guarded step life_ok linit ops -> (cnt is_shutok ev <= 1)%nat.
Proof. intros H HG. pose proof (guarded_shutmsgs _ _ _ H HG). pose proof (shut_counts _ _ _ H). lia. Qed.

(** ** The loops come to an end *)
Definition may_finish (k : kind) (s : lstate) : Prop :=
  match k with KInit => is_Some (l_ireq s) | KShut => l_deact s = ∅ | KStart => True end.
Definition finished (k : kind) (f : N) (s s' : lstate) (e : list levent) : Prop :=
  match k with
  | KInit => l_state s' = AInitialized /\ forall r, l_ireq s = Some r -> EInitOk f r ∈ e
  | KShut => l_state s' = AShutDown /\ forall r, l_sreq s = Some r -> EShutOk f r ∈ e
  | KStart => True
  end.
Definition desc (k : kind) (l : list nat) : Prop := forall p, p ∈ l -> (List.length (todo_after n k p) < List.length l)%nat.
Lemma todo_after_desc k p : desc k (todo_after n k p).
Proof.
  intros q Hq. destruct k; cbn in *; rewrite ?elem_of_list_In, <-?in_rev, <-?elem_of_list_In in Hq; apply elem_of_seq in Hq; rewrite ?rev_length, ?seq_length; lia.
Qed.
Lemma todo_start_desc k : desc k (todo_from_start n k).
Proof.
  intros q Hq. destruct k; cbn in *; rewrite ?elem_of_list_In, <-?in_rev, <-?elem_of_list_In in Hq; apply elem_of_seq in Hq; rewrite ?rev_length, ?seq_length; lia.
Qed.
Lemma loop_completes k f : forall len l s, (List.length l <= len)%nat -> desc k l -> may_finish k s ->
  exists m s1 e1 s' e', loop starter s k f l = Ok (s1, e1) /\ run step s1 (replicate m (OVote true)) = Ok (s', e') /\
    finished k f s s' (e1 ++ e') /\ EFinish k f ∈ e1 ++ e' /\ l_stack s' = l_stack s.
Proof.
  induction len as [|len IH]; intros l s Hlen Hd Hm.
  - destruct l; [|cbn in Hlen; lia]. unfold loop. cbn. destruct k; cbn in *.
    + destruct Hm as [r Er]. unfold init_finish. cbn. rewrite Er. cbn. exists 0%nat. eexists _, _, _, _. split_and!; try done; cbn; [intros x [= ->]; right; left|left].
    + unfold shutdown_finish. cbn. rewrite bool_decide_eq_true_2 by done. cbn. exists 0%nat. eexists _, _, _, _. split_and!; try done; cbn; [|left].
      intros x ->. cbn. right. left.
    + exists 0%nat. eexists _, _, _, _. split_and!; try done. left.
  - unfold loop at 1. destruct (scan (l_want s k) l) as [sk q] eqn:Es. destruct q as [p|].
    + destruct (scan_some _ _ _ _ Es) as (l2 & -> & Hp & _). assert (Hpin : p ∈ sk ++ p :: l2) by (rewrite elem_of_app, elem_of_cons; auto).
      specialize (Hd p Hpin) as Hl.
      assert (HH : forall sx, l_stack sx = Frame k f p :: l_stack s -> l_ireq sx = l_ireq s -> l_sreq sx = l_sreq s -> l_deact sx = l_deact s ->
        exists m s' e', run step sx (replicate m (OVote true)) = Ok (s', e') /\ finished k f s s' e' /\ EFinish k f ∈ e' /\ l_stack s' = l_stack s).
      { intros sx E1 E2 E3 E4. destruct (IH (todo_after n k p) (react (set_stack sx (l_stack s)) k p false)) as (m & s1 & e1 & s' & e' & Hlp & Hr & Hf & He & Hst).
        - lia.
        - apply todo_after_desc.
        - destruct k; cbn in *; congruence.
        - exists (S m), s'. eexists. split_and!.
          + cbn. unfold vote. rewrite E1. cbn [orb]. change (LifeModel.loop starter) with (loop starter). rewrite Hlp. cbn. rewrite Hr. cbn. reflexivity.
          + destruct k; cbn in *; [| |done]; destruct Hf as [H1 H2]; (split; [done|]); intros r Hr'; do 2 right; apply H2; congruence.
          + cbn. by do 2 right.
          + done. }
      destruct (decide _).
      * destruct (HH (set_state (set_stack s (Frame k f p :: l_stack s)) AOperational)) as (m & s' & e' & Hr & Hf & He & Hst); [done..|].
        exists m. eexists _, _, _, _. split_and!; [done|exact Hr| | |done].
        -- destruct k; cbn in *; [| |done]; destruct Hf as [H1 H2]; (split; [done|]); intros r Hr'; apply elem_of_app; right; auto.
        -- apply elem_of_app. by right.
      * destruct (HH (set_stack s (Frame k f p :: l_stack s))) as (m & s' & e' & Hr & Hf & He & Hst); [done..|].
        exists m. eexists _, _, _, _. split_and!; [done|exact Hr| | |done].
        -- destruct k; cbn in *; [| |done]; destruct Hf as [H1 H2]; (split; [done|]); intros r Hr'; apply elem_of_app; right; auto.
        -- apply elem_of_app. by right.
    + assert (Hb : forall a, EFinish k f ∈ ((ESkip k f <$> sk) ++ EFinish k f :: a) ++ []) by (intros; rewrite !elem_of_app, elem_of_cons; auto).
      destruct k; cbn in *.
      * destruct Hm as [r Er]. unfold init_finish. cbn. rewrite Er. cbn. exists 0%nat. eexists _, _, _, _. split_and!; try done; try (by apply Hb).
        intros x [= ->]. rewrite app_nil_r, elem_of_app. right. right. left.
      * unfold shutdown_finish. cbn. rewrite bool_decide_eq_true_2 by done. cbn. exists 0%nat. eexists _, _, _, _. split_and!; try done; try (by apply Hb).
        intros x ->. rewrite app_nil_r, elem_of_app. right. right. left.
      * exists 0%nat. eexists _, _, _, _. split_and!; try done.
Qed.
Lemma begin_completes k s : may_finish k s ->
  exists m s1 e1 s' e', begin n starter s k = Ok (s1, e1) /\ run step s1 (replicate m (OVote true)) = Ok (s', e') /\
    finished k (l_fid s) s s' (e1 ++ e') /\ l_stack s' = l_stack s.
Proof.
  intros Hm. unfold begin. set (s0 := set_prog _ _).
  destruct (loop_completes k (l_fid s) (List.length (todo_from_start n k)) (todo_from_start n k) s0) as (m & s1 & e1 & s' & e' & Hl & Hr & Hf & _ & Hst).
  - done.
  - apply todo_start_desc.
  - by destruct k.
  - rewrite Hl. cbn. exists m. eexists _, _, _, _. split_and!; [done|exact Hr| |done].
    destruct k; cbn in *; [| |done]; destruct Hf as [H1 H2]; (split; [done|]); intros r Hr'; right; by apply H2.
Qed.
(** If every plugin asked agrees, the init request which is pending is answered. *)
Lemma init_completes s r : l_state s = AInitializing -> l_ireq s = Some r ->
  exists m s' e f, run step s (OContinue KInit :: replicate m (OVote true)) = Ok (s', e) /\ l_state s' = AInitialized /\ EInitOk f r ∈ e.
Proof.
  intros Hs Hr. destruct (begin_completes KInit s) as (m & s1 & e1 & s' & e' & H1 & H2 & [H3 H4] & _); [by exists r|].
  exists m, s', (e1 ++ e'), (l_fid s). split_and!; [|done|auto].
  cbn. unfold init_continue. rewrite !bool_decide_eq_true_2 by (done || by exists r). cbn. rewrite H1. cbn. by rewrite H2.
Qed.
Lemma shut_completes s : l_state s = AShuttingDown -> l_deact s = ∅ ->
  exists m s' e f, run step s (OContinue KShut :: replicate m (OVote true)) = Ok (s', e) /\ l_state s' = AShutDown /\
    (forall r, l_sreq s = Some r -> EShutOk f r ∈ e).
Proof.
  intros Hs Hr. destruct (begin_completes KShut s) as (m & s1 & e1 & s' & e' & H1 & H2 & [H3 H4] & _); [done|].
  exists m, s', (e1 ++ e'), (l_fid s). split_and!; [|done|auto].
  cbn. unfold shutdown_continue. rewrite !bool_decide_eq_true_2 by done. cbn. rewrite H1. cbn. by rewrite H2.
Qed.
End facts.
