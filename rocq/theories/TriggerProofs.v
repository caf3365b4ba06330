(** Proofs of C83. *)
From stdpp Require Import base list gmap.
From Verif Require Import Base ChildMgrModel ChildMgrSpec ChildMgrProofs ChildMgrTrace ChildMgrFacts FamilyModel FamilySpec FamilySteps FamilyFold FamilyInv FamilyProofs FamilyInit TreeInv TreeSteps TreeNode FamilyStartProofs.
From Verif Require Import TreeAllSpec TreeLateProofs TriggerSpec.
From Verif Require NamesProofs.
Open Scope N_scope.

Section trig.
Context (hp : bool) (policy : spolicy) (sync : bool).
Notation step := (cstep hp policy sync).
Notation fstep := (fstep hp policy sync).
Notation oall := oall.

Lemma up3_answered s c : up3 s c -> answered s c.
Proof. intros (st & H & Hr). exists st. split; [done|]. destruct st; cbn in Hr; try lia; tauto. Qed.
Lemma keep_up3 s ev o s' e c : oall s ev -> c <> 0 -> fstep s o = Ok (s', e) -> up3 s c -> up3 s' c.
Proof.
  intros (Hf & Hx & _) Hc H Hu. pose proof H as Hsh. apply step_shape in Hsh as [fo ea co s1 s2 l P Hm Hs Hfi Hl|He So]; [|by apply So].
  destruct (manage_eff hp policy sync s ev o e Hf fo ea co s1 s2 P Hm Hfi) as (Ha & Hst & E). destruct Hu as (st & Hu & Hr). exists st. split; [|done]. rewrite <-Hu.
  apply state_known in Hu. assert (Hn : ECreated c ∉ e). { intros Hn. pose proof (ef_kind _ _ _ _ E) as Hk. rewrite Forall_forall in Hk. apply Hk in Hn as [Hn _].
    pose proof (oknown_lt _ _ _ Hf Hx Hu). destruct (pr_cm _ _ _ P) as [Heq|[y Heq]]; rewrite Heq in Hn; cbn in Hn; lia. }
  subst s'. unfold state_of. cbn. rewrite (ef_old _ _ _ _ E c Hn). by destruct (pr_cm _ _ _ P) as [->|[y ->]].
Qed.
(** Without synchronized start. *)
Lemma start_ok s o s' e c : sync = false -> c <> 0 -> fstep s o = Ok (s', e) -> EStart c ∈ e -> EInitOk c ∈ e.
Proof.
  intros Hsy Hc H Hin. apply step_shape in H as [fo ea co s1 s2 l P Hm Hs Hfi Hl|He So]; [|subst e; by apply elem_of_nil in Hin].
  apply manage_keeps in Hm as (_ & _ & _ & _ & Hst). destruct (start_step _ _ _ _ _ _ _ _ Hst Hin) as [(_ & ? & _)|[-> _]]; [congruence|].
  cbn in Hst. destruct (bool_decide (c ∈ _)); [|injection Hst as _ <-; by apply elem_of_nil in Hin]. unfold on_init in Hst. cbn [negb andb] in Hst. set (x := set_initout _ _) in Hst.
  change (cm_map x) with (cm_map (f_cm s1)) in Hst. destruct (cm_map (f_cm s1) !! c) as [i|].
  - injection Hst as _ <-. left.
  - exfalso. injection Hst as _ <-. cbn in Hin. destruct (negb _) in Hin; [|by apply elem_of_nil in Hin]. by apply TreeSteps.init_cont_in in Hin.
Qed.
Lemma trig_free ops s ev c : sync = false -> c <> 0 -> guarded fstep orderly (finit hp) ops -> run fstep (finit hp) ops = Ok (s, ev) -> EStart c ∈ ev -> answered s c.
Proof.
  intros Hsy Hc Hg H Hin. destruct (fam_oall _ _ _ _ _ _ Hg H) as (_ & Ho & _). apply up3_answered, (o_ok _ _ Ho c Hc). right.
  revert Hin. refine (run_inv_ev fstep orderly (fun s ev => EStart c ∈ ev -> EInitOk c ∈ ev) _ ops (finit hp) [] s ev _ Hg H); [|intros Hx; by apply elem_of_nil in Hx].
  intros s0 ev0 o s1 e1 IH _ Hs [Hx|Hx]%elem_of_app; apply elem_of_app; [left; auto|right]. by eapply start_ok.
Qed.
(** With synchronized start. *)
Lemma to_initialized s o s' e : step s o = Ok (s', e) -> cm_state s = AInitializing -> cm_state s' = AInitialized -> o = OState AInitialized.
Proof.
  intros H H1 H2. assert (Hsame : cm_state s' = cm_state s -> o = OState AInitialized) by congruence.
  destruct o as [|cfg|x ok|x|x fl|x|x subs ask|x ask| | | |id|d| | |st|x ch|m ask].
  all: try (apply step_own in H; [|by right|done]; destruct H as (Hx & _); by apply Hsame).
  - cbn in H. unfold on_shutdown_trigger in H. destruct (cm_map s !! x) as [i|]; [|done]. unfold request_shutdown in H.
    destruct (ci_shut i); [|injection H as <- <-; by apply Hsame..]. destruct (ci_actor i) as [y|]; [|done]. destruct (cancel_own s y) as [K1 K2].
    destruct (y =? 0); [|injection H as <- <-; apply Hsame; exact K1]. destruct hp; [injection H as <- <-; apply Hsame; exact K1|].
    destruct (bool_decide _); [injection H as <- <-; apply Hsame; exact K1|].
    destruct (request_shutdown_all _) as [s3 e3] eqn:Hall. injection H as <- <-. destruct (all_own (set_state (put_info (cancel_init s y) x (i_shut i SConfirmed)) AShuttingDown)) as (K & _).
    rewrite Hall in K. cbn in K. cbn in H2. rewrite K in H2. done.
  - cbn in H. destruct (bool_decide _); [|injection H as <- <-; by apply Hsame]. destruct (handle_start _ _). injection H as <- <-. done.
  - cbn in H. injection H as <- <-. by destruct (bool_decide _); apply Hsame.
  - cbn in H. destruct (sup_moves hp (cm_state s) st) eqn:Hm; injection H as <- <-; [|by apply Hsame]. cbn in H2. by rewrite H2.
  - cbn in H. destruct (cm_children s !! x); [|injection H as <- <-; by apply Hsame]. destruct (decide _); injection H as <- <-; by apply Hsame.
Qed.
Lemma sup_to s o s' e : fstep s o = Ok (s', e) -> cm_state (f_cm s) = AInitializing -> cm_state (f_cm s') = AInitialized -> o = FInitialized.
Proof.
  intros H H1 H2. assert (Hco : forall co, manage hp policy sync false false s co = Ok (s', e) -> co = OState AInitialized).
  { intros co Hm. destruct (manage_keeps hp policy sync false false s co s' e Hm) as (_ & _ & _ & _ & Hst). by eapply to_initialized. }
  pose proof H as H0. apply step_shape in H0 as [fo ea co s1 s2 l P Hm -> Hfi _|_ So]; [|destruct (so_cm _ _ So) as [M HM]; rewrite HM in H2; cbn in H2; congruence].
  destruct (manage_keeps hp policy sync fo ea s1 co s2 e Hm) as (_ & _ & _ & _ & Hst). assert (E : cm_state (f_cm s1) = AInitializing) by (by destruct (pr_cm _ _ _ P) as [->|[x ->]]).
  apply to_initialized in Hst as ->; [|done|exact H2]. cbn in Hfi. destruct o; try discriminate Hfi; [done|..]; exfalso; cbn [FamilyModel.fstep] in H.
  - by apply Hco in H.
  - clear Hm P. destruct hp; [by apply Hco in H|]. injection H as H _. rewrite <-H in H2. congruence.
  - clear Hm P. destruct hp; [by apply Hco in H|]. injection H as H _. rewrite <-H in H2. congruence.
  - by apply Hco in H.
Qed.
(** A supervisor which initializes has not left. *)
Lemma agreed s ev c : oall s ev -> c <> 0 -> 0 ∉ f_bye s -> handle_init (f_cm s) = true -> ECreated c ∈ ev -> up3 s c.
Proof.
  intros (Hf & Ho & _) Hc Hb Hh Hcr. pose proof (fi_rinv _ _ Hf Hb) as R. destruct (o_created _ _ Ho c Hcr) as [ch Hch]. pose proof (r_child _ _ _ R c ch Hc Hch) as P.
  assert (Hup : 2 < rank (ch_state ch) -> up3 s c) by (intros Hr; exists (ch_state ch); unfold state_of; rewrite Hch; split; [done|lia]).
  destruct (removed_dec c ev) as [Hr|Hr]; [apply Hup; destruct (p_rem _ _ _ _ _ P Hr) as [-> _]; done|].
  destruct (h_live _ _ (ai_h _ _ _ (fi_all _ _ Hf)) c Hcr) as [(j & Hj & Ha)|?]; [|done].
  destruct (ci_initialized j) eqn:Hi; [apply (o_ok _ _ Ho c Hc); right; eapply h_init; [apply (ai_h _ _ _ (fi_all _ _ Hf))|done|done..]|].
  unfold handle_init in Hh. apply negb_true_iff in Hh.
  assert (Hno : initializing (f_cm s) c j = false).
  { destruct (initializing (f_cm s) c j) eqn:E; [|done]. assert (has_initializing (f_cm s) = true); [|congruence].
    unfold has_initializing. apply existsb_exists. exists (c, j). split; [by apply elem_of_list_In, elem_of_map_to_list|done]. }
  unfold initializing in Hno. rewrite Ha, Hch, Hi in Hno. destruct (N.eqb_spec c 0); [done|]. cbn in Hno. rewrite andb_true_r in Hno. apply Hup. by apply N.leb_gt in Hno.
Qed.
Definition waits (c : N) (s : fstate) (ev : list cevent) : Prop := oall s ev /\ ECreated c ∈ ev /\
  (0 ∈ f_bye s \/ up3 s c \/ (EStart c ∉ ev /\ (cm_state (f_cm s) = AInitializing \/ past (cm_state (f_cm s))))).
Lemma step_waits c s ev o s' e : sync = true -> c <> 0 -> waits c s ev -> polite s o -> fstep s o = Ok (s', e) -> waits c s' (ev ++ e).
Proof.
  intros Hsy Hc (Ha & Hcr & Hw) [Ho Hp] H. pose proof (step_oall _ _ _ _ _ _ _ _ Ha Ho H) as Ha'. split; [done|]. split; [apply elem_of_app; by left|].
  destruct (decide (0 ∈ f_bye s)) as [Hb|Hb]; [left; by eapply bye_mono|]. destruct Hw as [?|[Hu|[Hns Hst]]]; [done|right; left; eapply keep_up3; [exact Ha|done|exact H|done]|]. right.
  assert (Hn : EStart c ∉ e).
  { intros Hin. pose proof H as Hsh. apply step_shape in Hsh as [fo ea co s1 s2 l P Hm -> _ _| -> So]; [|by apply elem_of_nil in Hin].
    destruct (manage_keeps hp policy sync fo ea s1 co s2 e Hm) as (_ & _ & _ & _ & Hx). assert (E : cm_state (f_cm s1) = cm_state (f_cm s)) by (by destruct (pr_cm _ _ _ P) as [->|[x ->]]).
    destruct (start_step _ _ _ _ _ _ _ _ Hx Hin) as [(_ & _ & Hs & _)|(_ & [?|?])]; [|done|congruence]. rewrite E in Hs. destruct Hst as [Hst|Hst]; [congruence|by rewrite Hs in Hst]. }
  assert (Hns' : EStart c ∉ ev ++ e) by (by intros [?|?]%elem_of_app).
  destruct Hst as [Hst|Hst]; [|right; split; [done|]; right; by destruct (late_step hp policy sync s o s' e c Hsy Hc H Hst)].
  destruct (cm_state (f_cm s')) eqn:E; [by destruct Ha' as (_ & _ & ?)|right; split; [done|by left]| |right; split; [done|by right]..].
  left. eapply keep_up3; [exact Ha|done|exact H|]. eapply agreed; [exact Ha|done|done| |done]. apply Hp. by eapply sup_to.
Qed.
Lemma told_past ops s ev c : sync = true -> c <> 0 -> guarded fstep orderly (finit hp) ops -> run fstep (finit hp) ops = Ok (s, ev) -> EStart c ∈ ev -> past (cm_state (f_cm s)).
Proof.
  intros Hsy Hc Hg H. refine (run_inv_ev fstep orderly (fun s ev => EStart c ∈ ev -> past (cm_state (f_cm s))) _ ops (finit hp) [] s ev _ Hg H); [|intros Hx; by apply elem_of_nil in Hx].
  intros s0 ev0 o s1 e1 IH _ Hs [Hx|Hx]%elem_of_app; [by destruct (late_step hp policy sync s0 o s1 e1 c Hsy Hc Hs (IH Hx))|].
  apply step_shape in Hs as [fo ea co s2 s3 l P Hm -> _ _| -> So]; [|by apply elem_of_nil in Hx].
  destruct (manage_keeps hp policy sync fo ea s2 co s3 e1 Hm) as (_ & _ & _ & _ & Hst). destruct (start_step _ _ _ _ _ _ _ _ Hst Hx) as [(-> & _ & Hs & _)|(_ & [?|?])]; [|done|congruence].
  cbn in Hst. rewrite Hs, bool_decide_true in Hst by done. destruct (handle_start _ _). injection Hst as Hst _. cbn. by rewrite <-Hst.
Qed.
(** Who is there before its supervisor is initialized gets the trigger when it has answered. *)
Lemma trig_sync ops1 s1 ev1 ops2 s ev2 c : sync = true -> c <> 0 -> guarded fstep orderly (finit hp) ops1 -> run fstep (finit hp) ops1 = Ok (s1, ev1) -> cm_state (f_cm s1) = AInitializing -> ECreated c ∈ ev1 ->
  guarded fstep polite s1 ops2 -> run fstep s1 ops2 = Ok (s, ev2) -> 0 ∉ f_bye s -> EStart c ∈ ev1 ++ ev2 -> answered s c.
Proof.
  intros Hsy Hc Hg1 H1 Hst Hcr Hg2 H2 Hb Hin. pose proof (fam_oall _ _ _ _ _ _ Hg1 H1) as Ha. assert (Hw : waits c s1 ev1).
  { split; [done|]. split; [done|]. destruct (decide (EStart c ∈ ev1)) as [Hi|Hi]; [|right; right; split; [done|by left]]. exfalso. apply (told_past _ _ _ _ Hsy Hc Hg1 H1) in Hi. by rewrite Hst in Hi. }
  assert (Hw' : waits c s (ev1 ++ ev2)) by (refine (run_inv_ev fstep polite (waits c) _ ops2 s1 ev1 s ev2 Hw Hg2 H2); intros; by eapply step_waits).
  destruct Hw' as (_ & _ & [?|[?|[? _]]]); [done|by apply up3_answered|done].
Qed.
End trig.
