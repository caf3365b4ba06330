(** Proofs of C81: the order of starts. *)
From stdpp Require Import base list gmap.
From Verif Require Import Base ChildMgrModel ChildMgrSpec ChildMgrProofs ChildMgrTrace ChildMgrFacts FamilyModel FamilySpec FamilySteps FamilyFold FamilyInv FamilyChild FamilyProofs FamilyInit TreeModel TreeSpec TreeSteps TreeInv TreeNode TreeProofs TreeTopSpec.
Open Scope N_scope.

(** ** One supervisor *)
Section node.
Context (hp : bool) (policy : spolicy) (sync : bool).
Notation step := (cstep hp policy sync).
Notation fstep := (fstep hp policy sync).

Lemma sup_step s o s' e : step s o = Ok (s', e) -> ESupStart ∈ e -> o = OHandleStart.
Proof.
  intros H Hin. pose proof (step_plain hp policy sync _ _ _ _ H) as Hp.
  destruct o as [|cfg|a ok|a|a failed|a|a subs ask|a ask| | | |id|d| | |st|c' ch|m ask]; try (exfalso; by eapply not_plain); try done; exfalso.
  - destruct failed; [by eapply not_plain|]. cbn in H. destruct (bool_decide (a ∈ cm_initout s)); [|inversion H; subst; by apply elem_of_nil in Hin].
    unfold on_init in H. cbn [negb andb] in H. set (s1 := set_initout s _) in H.
    change (cm_map s1 !! a) with (cm_map s !! a) in H. destruct (cm_map s !! a) as [i|]; inversion H; subst; clear H.
    + apply elem_of_cons in Hin as [?|Hin]; [done|]. apply elem_of_app in Hin as [Hin|Hin].
      * destruct (if a =? 0 then _ else _); [by apply elem_of_list_singleton in Hin|by apply elem_of_nil in Hin].
      * destruct (negb _); [|by apply elem_of_nil in Hin]. eapply not_plain; [apply plain_ic|done|done].
    + destruct (negb _); [|by apply elem_of_nil in Hin]. eapply not_plain; [apply plain_ic|done|done].
  - cbn in H. unfold on_shutdown_trigger in H. destruct (cm_map s !! a) as [i|]; [|done].
    unfold request_shutdown in H. destruct (ci_shut i); [|inversion H; subst; by apply elem_of_nil in Hin..].
    destruct (ci_actor i) as [x|]; [|done]. destruct (x =? 0).
    + destruct hp; [inversion H; subst; eapply not_plain; [apply plain_self|done|done]|].
      destruct (bool_decide _); [inversion H; subst; by apply elem_of_nil in Hin|].
      match type of H with context [request_shutdown_all ?x] => pose proof (plain_all x) as Hpa; destruct (request_shutdown_all x) as [s3 e3] end.
      inversion H; subst. apply elem_of_cons in Hin as [?|Hin]; [done|]. apply elem_of_app in Hin as [Hin|Hin].
      * by eapply not_plain.
      * by apply elem_of_list_singleton in Hin.
    + inversion H; subst. by apply elem_of_list_singleton in Hin.
  - inversion H; subst. by apply elem_of_list_singleton in Hin.
  - cbn -[request_shutdown_all handle_shutdown] in H. destruct (bool_decide _); [|inversion H; subst; by apply elem_of_nil in Hin].
    unfold handle_shutdown in H. destruct (cm_map s !! 0) as [i|]; [|done].
    pose proof (plain_all (put_info s 0 (i_shut i SConfirmed))) as Hpa.
    destruct (request_shutdown_all _) as [s1 e1] eqn:E1. cbn [fst snd] in *. inversion H; subst.
    apply elem_of_app in Hin as [Hin|Hin]; [by eapply not_plain|]. by apply elem_of_list_singleton in Hin.
Qed.
End node.
Section node2.
Context (hp : bool) (policy : spolicy) (sync : bool).
Notation fstep := (fstep hp policy sync).
Lemma sup_fstep s o s' e : fstep s o = Ok (s', e) -> ESupStart ∈ e -> o = FStarted.
Proof.
  intros H Hin. destruct (special o) eqn:Hsp.
  - destruct o; try done; exfalso; cbn [FamilyModel.fstep] in H; unfold manage0 in H.
    + destruct (_ && _) in H; [|injection H as <- <-; by apply elem_of_nil in Hin].
      destruct (manage hp policy sync false false s (OState AInitialized)) as [[t et]| |] eqn:Hm; [|done..]. cbn [rbind] in H. injection H as <- <-.
      apply manage_keeps in Hm as (_ & _ & _ & _ & Hst). by apply sup_step in Hst.
    + destruct hp; [|injection H as <- <-; by apply elem_of_nil in Hin]. apply manage_keeps in H as (_ & _ & _ & _ & Hst). by apply sup_step in Hst.
    + destruct hp; [|injection H as <- <-; by apply elem_of_nil in Hin]. apply manage_keeps in H as (_ & _ & _ & _ & Hst). by apply sup_step in Hst.
    + apply manage_keeps in H as (_ & _ & _ & _ & Hst). by apply sup_step in Hst.
  - exfalso. apply step_shape in H as [fo ea co s1 s2 l P Hm Hs Hfi Hl|He So]; [|subst e; by apply elem_of_nil in Hin].
    apply manage_keeps in Hm as (_ & _ & _ & _ & Hst). apply sup_step in Hst; [|done]. subst co. cbn in Hfi. congruence.
Qed.
Lemma start_fstep s o s' e c : sync = true -> fstep s o = Ok (s', e) -> EStart c ∈ e -> c <> 0 -> ESupStart ∈ e.
Proof.
  intros Hsy H Hin Hc. apply step_shape in H as [fo ea co s1 s2 l P Hm Hs Hfi Hl|He So]; [|subst e; by apply elem_of_nil in Hin].
  apply manage_keeps in Hm as (_ & _ & _ & _ & Hst). destruct (start_step hp policy sync _ _ _ _ c Hst Hin) as [(_ & _ & _ & e' & ->)|(_ & [?|?])]; [left|done|congruence].
Qed.
Lemma new_known s ev o s' e c : finv s ev -> fstep s o = Ok (s', e) -> known s' c -> known s c \/ (ECreated c ∈ e /\ state_of s' c = Some AInitializing).
Proof.
  intros Hf H Hk. apply step_shape in H as [fo ea co s1 s2 l P Hm Hq Hfi Hl|He So]; [|left; by apply So].
  assert (Ha : allinv False (f_cm s1) ev). { destruct (pr_cm _ _ _ P) as [->|[x ->]]; [apply Hf|]. pose proof (fi_all _ _ Hf) as Hfa. by apply allinv_weak with (f_cm s). }
  destruct (manage_keeps hp policy sync fo ea s1 co s2 e Hm) as (_ & _ & _ & _ & Hst). assert (E : eff (f_cm s1) co (f_cm s2) e) by (eapply step_eff; [apply Ha| |exact Hst]; by destruct co).
  subst s'. unfold known, state_of in *. cbn in Hk. destruct (decide (ECreated c ∈ e)) as [Hc|Hc]; [right; split; [done|]; cbn; by rewrite (ef_new _ _ _ _ E c Hc)|left].
  rewrite (ef_old _ _ _ _ E c Hc) in Hk. destruct (pr_cm _ _ _ P) as [Heq|[y Heq]]; by rewrite Heq in Hk.
Qed.
Lemma after_oper s o c ch : after s o c = Some ch -> ch_state ch = AOperational -> state_of s c = Some AOperational \/ o = FChildStart c.
Proof.
  unfold after, state_of. destruct (cm_children (f_cm s) !! c) as [x|]; [|done]. cbn -[downcall]. intros H Hs.
  assert (Hx : ch = x -> Some (ch_state x) = Some AOperational) by congruence. injection H as H. symmetry in H.
  destruct o; try (left; by apply Hx).
  - destruct (downcall s _) as [[d []]|]; try (left; by apply Hx); destruct (d =? c); try (left; by apply Hx); subst ch; first [by cbn in Hs|left; cbn in Hs; by rewrite Hs].
  - destruct (downcall s _) as [[d []]|]; try (left; by apply Hx); destruct (d =? c); try (left; by apply Hx); subst ch; first [by cbn in Hs|left; cbn in Hs; by rewrite Hs].
  - destruct (_ && _); [|left; by apply Hx]. subst ch. by destruct failed.
  - destruct (N.eqb_spec c0 c) as [->|]; [by right|]. left. by apply Hx.
  - destruct (_ && _); [|left; by apply Hx]. by subst ch.
Qed.
(** What the operations of a supervisor tell. *)
Record tells (ops : list fop) (s : fstate) (ev : list cevent) : Prop := {
  tl_known : forall c, known s c -> c <> 0 -> ECreated c ∈ ev;
  tl_sup : ESupStart ∈ ev -> FStarted ∈ ops;
  tl_child : forall c, c <> 0 -> state_of s c = Some AOperational -> FChildStart c ∈ ops;
  tl_sync : sync = true -> forall c, c <> 0 -> EStart c ∈ ev -> ESupStart ∈ ev }.
Lemma node_tells ops : forall s ev, guarded fstep orderly (finit hp) ops -> run fstep (finit hp) ops = Ok (s, ev) -> tells ops s ev.
Proof.
  induction ops as [|o ops IH] using rev_ind; intros s ev Hg H.
  - injection H as <- <-. assert (Hk : forall c, c <> 0 -> cm_children (f_cm (finit hp)) !! c = None) by (intros c Hc; cbn; by rewrite lookup_singleton_ne).
    split; [intros c [x Hx] Hc; by rewrite Hk in Hx|intros Hx; by apply elem_of_nil in Hx|intros c Hc; unfold state_of; by rewrite Hk|intros _ c _ Hx; by apply elem_of_nil in Hx].
  - rewrite run_app in H. destruct (run fstep (finit hp) ops) as [[s1 ev1]| |] eqn:E1; [|done..].
    destruct (guarded_split hp policy sync ops _ _ _ _ Hg E1) as [Hg1 _]. clear Hg. rename Hg1 into Hg. cbn [rbind run] in H.
    destruct (fstep s1 o) as [[s2 e2]| |] eqn:E2; [|done..]. cbn in H. injection H as <- <-. rewrite app_nil_r.
    pose proof (fam_reach _ _ _ _ _ _ Hg E1) as Hf. destruct (IH s1 ev1 Hg eq_refl) as [A0 A1 A2 A3]. split.
    + intros c Hk Hc. apply elem_of_app. destruct (new_known _ _ _ _ _ c Hf E2 Hk) as [Hx|[Hx _]]; [left; by apply A0|by right].
    + rewrite !elem_of_app. intros [Hi|Hi]; [left; by apply A1|right]. apply (sup_fstep _ _ _ _ E2) in Hi as ->. left.
    + intros c Hc Hs. apply elem_of_app. assert (Hk : known s2 c). { unfold known, state_of in *. by destruct (cm_children (f_cm s2) !! c). }
      destruct (new_known _ _ _ _ _ c Hf E2 Hk) as [Hx|[_ Hx]]; [|congruence]. apply A0 in Hx; [|done].
      destruct (h_next _ _ (ai_h _ _ _ (fi_all _ _ Hf)) c Hx) as [_ Hlt]. pose proof (step_child hp policy sync s1 ev1 o s2 e2 c (fi_all _ _ Hf) E2 Hlt Hc) as Hk2.
      unfold state_of in Hs. destruct (cm_children (f_cm s2) !! c) as [ch|] eqn:E; [|done]. injection Hs as Hs. symmetry in Hk2. destruct (after_oper _ _ _ _ Hk2 Hs) as [Hy| ->]; [left; by apply A2|right; left].
    + intros Hsy c Hc. rewrite !elem_of_app. intros [Hi|Hi]; [left; by eapply A3|right]. by eapply start_fstep.
Qed.
End node2.

Section tree.
Context (pol : list N -> spolicy) (sync : list N -> bool).
Notation nstep := (nstep pol sync).
Notation local := (local pol sync).
Notation tstep := (tstep pol sync).

(** ** The tree *)
Notation good := (tinv pol sync (fun _ => False)).
Definition J (t : tstate) : Prop := forall n nd, t !! n = Some nd ->
  (FStarted ∈ n_ops nd -> match n with [] => True | c :: p => triggered t p c end) /\ forall c, FChildStart c ∈ n_ops nd -> EStart c ∈ n_ev nd.
Definition ext (t t' : tstate) : Prop := forall n nd, t !! n = Some nd -> exists nd', t' !! n = Some nd' /\ forall x, x ∈ n_ev nd -> x ∈ n_ev nd'.
Lemma ext_refl t : ext t t.
Proof. intros n nd H. by exists nd. Qed.
Lemma ext_trans t1 t2 t3 : ext t1 t2 -> ext t2 t3 -> ext t1 t3.
Proof. intros A B n nd H. destruct (A n nd H) as (n2 & H2 & I2). destruct (B n n2 H2) as (n3 & H3 & I3). exists n3. split; [done|auto]. Qed.
Lemma ext_trig t t' n c : ext t t' -> triggered t n c -> triggered t' n c.
Proof. intros A (nd & H & Hi). destruct (A n nd H) as (nd' & H' & I). exists nd'. auto. Qed.

Definition may (t : tstate) (n : list N) (o : fop) : Prop :=
  match o with FChildStart c => triggered t n c | FStarted => match n with [] => True | c :: p => triggered t p c end | _ => True end.
Lemma may_ext t t' n o : ext t t' -> may t n o -> may t' n o.
Proof. intros He. destruct o; try done; cbn; [by apply ext_trig|destruct n; [done|by apply ext_trig]]. Qed.
Lemma local_J t n o t' e : J t -> may t n o -> local t n o = Ok (t', e) -> J t' /\ ext t t'.
Proof.
  intros Hj Hm H. unfold TreeModel.local in H. destruct (t !! n) as [nd|] eqn:En; [|injection H as <- <-; split; [done|apply ext_refl]].
  destruct (nstep n (n_fam nd) o) as [[s e']| |]; [|done..]. cbn [rbind] in H. injection H as <- <-.
  assert (He : ext t (<[n := Node s (n_ops nd ++ [o]) (n_ev nd ++ e')]> t)).
  { intros m md Hmd. destruct (decide (m = n)) as [->|Hne].
    - rewrite t_eq. eexists. split; [done|]. cbn. intros x Hx. rewrite En in Hmd. injection Hmd as <-. apply elem_of_app. by left.
    - rewrite t_ne by congruence. by exists md. }
  split; [|done]. intros m md Hmd. pose proof (may_ext _ _ _ _ He Hm) as Hm'. destruct (decide (m = n)) as [->|Hne].
  - rewrite t_eq in Hmd. injection Hmd as <-. destruct (Hj n nd En) as [J1 J2]. cbn [n_ops n_ev]. split.
    + intros [Hf|Hf%elem_of_list_singleton]%elem_of_app.
      * apply J1 in Hf. destruct n as [|c p]; [done|by eapply ext_trig].
      * by subst o.
    + intros c [Hf|Hf%elem_of_list_singleton]%elem_of_app; [apply elem_of_app; left; by apply J2|]. subst o. cbn in Hm'. destruct Hm' as (x & Hx & Hy). rewrite t_eq in Hx. by injection Hx as <-.
  - rewrite t_ne in Hmd by congruence. destruct (Hj m md Hmd) as [J1 J2]. split; [|done]. intros Hf. apply J1 in Hf. destruct m as [|c p]; [done|by eapply ext_trig].
Qed.
Lemma upcalls_J n l : forall t t', J t -> upcalls pol sync t n l = Ok t' -> J t' /\ ext t t'.
Proof.
  induction l as [|x l IH]; intros t t' Hj H; cbn in H; [injection H as <-; split; [done|apply ext_refl]|].
  destruct (upcall pol sync t n x) as [[t1 e1]| |] eqn:Hu; [|done..]. cbn in H.
  assert (H1 : J t1 /\ ext t t1).
  { unfold upcall in Hu. assert (Hs : Ok (t, []) = Ok (t1, e1) -> J t1 /\ ext t t1) by (intros Hs; injection Hs as <- <-; split; [done|apply ext_refl]).
    destruct n as [|c p]; [by apply Hs|]. destruct x; try (by apply Hs); (eapply local_J; [exact Hj| |exact Hu]; exact I). }
  destruct H1 as [J1 E1]. destruct (IH t1 t' J1 H) as [J2 E2]. split; [done|by eapply ext_trans].
Qed.
Lemma both_J t n c oc on t' e : J t -> may t (c :: n) oc -> may t n on -> both pol sync t n c oc on = Ok (t', e) -> J t' /\ ext t t'.
Proof.
  intros Hj H1 H2 H. unfold both in H. destruct (local t (c :: n) oc) as [[t1 e1]| |] eqn:El; [|done..]. cbn [rbind] in H.
  destruct (local_J _ _ _ _ _ Hj H1 El) as [J1 E1]. destruct (local_J _ _ _ _ _ J1 (may_ext _ _ _ _ E1 H2) H) as [J2 E2]. split; [done|by eapply ext_trans].
Qed.
Lemma downcall_may t n s o c oc : downcall s o = Some (c, oc) -> may t n oc.
Proof.
  assert (Hh : forall d m, handled s d m = Some (c, oc) -> may t n oc) by (intros d m; unfold handled; destruct (decide _); [done|]; destruct m; try done; by intros [= _ <-]).
  unfold downcall. destruct o; try done.
  - destruct (f_q s) as [|m q]; [done|]. destruct m; try done; destruct (_ || _); try done; apply Hh.
  - destruct (downl s c0) as [|m q]; [done|]. apply Hh.
Qed.
Lemma step_J t o t' e : J t -> told t o -> tstep t o = Ok (t', e) -> J t' /\ ext t t'.
Proof.
  intros Hj Ht H. assert (Hsame : Ok (t, []) = Ok (t', e) -> J t' /\ ext t t') by (intros Hs; injection Hs as <- <-; split; [done|apply ext_refl]).
  destruct o as [n o|n c|n c|n c|n c]; cbn [TreeModel.tstep] in H.
  - destruct (t !! n) as [nd|] eqn:En; [|by apply Hsame]. destruct (shared t n o) eqn:Hsh; [by apply Hsame|]. cbn [orb] in H. destruct (negb _); [by apply Hsame|].
    assert (Hm : may t n o). { destruct o; try done; cbn in *. destruct n; [done|]. by cbn in Hsh. }
    destruct (local t n o) as [[t1 e1]| |] eqn:El; [|done..]. cbn [rbind] in H. destruct (local_J _ _ _ _ _ Hj Hm El) as [J1 E1].
    destruct (match downcall (n_fam nd) o with Some (c, oc) => local t1 (c :: n) oc | None => Ok (t1, []) end) as [[t2 e2]| |] eqn:Ed; [|done..]. cbn [rbind] in H.
    assert (H2 : J t2 /\ ext t1 t2).
    { destruct (downcall (n_fam nd) o) as [[c oc]|] eqn:Edc; [|injection Ed as <- <-; split; [done|apply ext_refl]]. eapply local_J; [done| |exact Ed]. by eapply downcall_may. }
    destruct H2 as [J2 E2]. destruct (upcalls pol sync t2 n e1) as [t3| |] eqn:Eu; [|done..]. cbn [rbind] in H. injection H as <- <-.
    destruct (upcalls_J _ _ _ _ J2 Eu) as [J3 E3]. split; [done|]. eapply ext_trans; [done|]. by eapply ext_trans.
  - destruct (t !! n) as [nd|] eqn:En; [|by apply Hsame]. destruct (t !! (c :: n)) as [m|] eqn:Ec; [by apply Hsame|]. destruct (child_ready _ _ _); [|by apply Hsame]. destruct (_ || _); [by apply Hsame|].
    injection H as <- <-. assert (He : ext t (<[c :: n := Node (finit true) [] []]> t)).
    { intros m md Hmd. exists md. split; [|done]. rewrite t_ne; [done|]. intros <-. congruence. }
    split; [|done]. intros m md Hmd. destruct (decide (m = c :: n)) as [->|Hne].
    + rewrite t_eq in Hmd. injection Hmd as <-. split; [|intros d]; intros Hx; by apply elem_of_nil in Hx.
    + rewrite t_ne in Hmd by congruence. destruct (Hj m md Hmd) as [J1 J2]. split; [|done]. intros Hf. apply J1 in Hf. destruct m as [|d p]; [done|by eapply ext_trig].
  - destruct (t !! (c :: n)) as [m|]; [|by apply Hsame]. destruct (ready _ _); [|by apply Hsame]. eapply both_J; [exact Hj| | |exact H]; done.
  - destruct (t !! (c :: n)) as [m|]; [|by apply Hsame]. eapply both_J; [exact Hj| | |exact H]; done.
  - destruct (t !! n) as [nd|]; [|by apply Hsame]. destruct (t !! (c :: n)) as [m|]; [|by apply Hsame]. destruct (decide _); [|by apply Hsame]. eapply both_J; [exact Hj| | |exact H]; done.
Qed.
Lemma J_init : J tinit.
Proof. intros n nd H. rewrite init_at in H. destruct n; [|done]. injection H as <-. cbn. split; [|intros c]; intros Hx; by apply elem_of_nil in Hx. Qed.

Lemma top_inv ops t ev : guarded tstep tidy_told tinit ops -> run tstep tinit ops = Ok (t, ev) -> good t /\ J t.
Proof.
  intros Hg H. refine (run_inv_ev tstep tidy_told (fun t _ => good t /\ J t) _ ops tinit [] t ev (conj (good_init pol sync) J_init) Hg H).
  intros s0 _ o s' e [Ht Hj] [Ho Hto] Hs. destruct (step_good pol sync s0 o Ht Ho) as (t' & e' & H' & Hg'). split; [congruence|]. by apply (step_J s0 o s' e).
Qed.
Lemma tells_at t n nd : good t -> t !! n = Some nd -> tells (sync n) (n_ops nd) (n_fam nd) (n_ev nd).
Proof. intros Hg Hn. destruct (te_node _ _ _ _ Hg n nd Hn) as [H1 H2 _]. exact (node_tells (hp n) (pol n) (sync n) _ _ _ H1 H2). Qed.

Lemma tree_told ops t ev n nd c : guarded tstep tidy_told tinit ops -> run tstep tinit ops = Ok (t, ev) -> t !! n = Some nd -> c <> 0 -> state_of (n_fam nd) c = Some AOperational -> EStart c ∈ n_ev nd.
Proof.
  intros Hg H Hn Hc Hs. destruct (top_inv ops t ev Hg H) as [A B]. apply (B n nd Hn). by apply (tells_at t n nd A Hn).
Qed.
Lemma tree_self ops t ev n nd : guarded tstep tidy_told tinit ops -> run tstep tinit ops = Ok (t, ev) -> t !! n = Some nd -> ESupStart ∈ n_ev nd -> match n with [] => True | c :: p => triggered t p c end.
Proof. intros Hg H Hn Hs. destruct (top_inv ops t ev Hg H) as [A B]. apply (B n nd Hn). by apply (tells_at t n nd A Hn). Qed.
Lemma climb t : good t -> J t -> forall l m nd, t !! (l ++ m) = Some nd -> (forall l1 l2, l = l1 ++ l2 -> sync (l2 ++ m) = true) -> ESupStart ∈ n_ev nd -> exists md, t !! m = Some md /\ ESupStart ∈ n_ev md.
Proof.
  intros A B. induction l as [|c l IH]; intros m nd Hn Hsy Hs; [by exists nd|].
  assert (Hf : FStarted ∈ n_ops nd) by (by apply (tells_at t _ nd A Hn)). destruct (B _ nd Hn) as [B1 _]. destruct (B1 Hf) as (pd & Hp & Hi). change (t !! (l ++ m) = Some pd) in Hp.
  destruct (te_par _ _ _ _ A c (l ++ m) nd Hn) as (pd' & Hp' & Hcr). rewrite Hp in Hp'. injection Hp' as <-.
  assert (Hc : c <> 0). { destruct (te_node _ _ _ _ A _ pd Hp) as [K1 K2 _]. by destruct (h_next _ _ (ai_h _ _ _ (fi_all _ _ (fam_reach _ _ _ _ _ _ K1 K2))) c Hcr). }
  apply (IH m pd Hp); [intros l1 l2 ->; by apply (Hsy (c :: l1) l2)|]. apply (tells_at t _ pd A Hp) with c; [|done|done]. apply (Hsy [c] l). done.
Qed.
Lemma tree_top ops t ev l m nd c : guarded tstep tidy_told tinit ops -> run tstep tinit ops = Ok (t, ev) -> t !! (l ++ m) = Some nd -> (forall l1 l2, l = l1 ++ l2 -> sync (l2 ++ m) = true) ->
  c <> 0 -> state_of (n_fam nd) c = Some AOperational -> exists md, t !! m = Some md /\ ESupStart ∈ n_ev md.
Proof.
  intros Hg H Hn Hsy Hc Hs. destruct (top_inv ops t ev Hg H) as [A B]. eapply (climb t A B l m nd Hn Hsy). apply (tells_at t _ nd A Hn) with c; [by apply (Hsy [] l)|done|].
  by eapply tree_told.
Qed.
End tree.
