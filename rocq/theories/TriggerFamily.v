(** C83 for a supervisor together with its children: nobody is told to start twice. *)
From stdpp Require Import base list gmap.
From Verif Require Import Base ChildMgrModel ChildMgrSpec ChildMgrProofs ChildMgrTrace ChildMgrFacts FamilyModel FamilySpec FamilySteps FamilyFold FamilyInv FamilyProofs FamilyInit TreeInv TreeSteps TreeNode FamilyStartProofs.
From Verif Require Import TreeModel TreeSpec TreeAllSpec TreeLateProofs TriggerSpec TriggerOnce.
From Verif Require TreeProofs TriggerProofs.
Open Scope N_scope.

Section fam.
Context (hp : bool) (policy : spolicy) (sync : bool).
Notation step := (cstep hp policy sync).
Notation fstep := (fstep hp policy sync).
Notation manage := (FamilyModel.manage hp policy sync).
Notation deliver := (FamilyModel.deliver hp policy sync).
Notation confirm := (FamilyModel.confirm hp policy sync).

(** What a step does to the child manager: one of its own steps, after a timeout with the request
    counted as open, or nothing but a change of children. *)
Definition pre2 (s : fstate) (co : cop) (s1 : fstate) : Prop :=
  f_cm s1 = f_cm s \/ exists d, co = OOnInit d true /\ f_cm s1 = set_initout (f_cm s) (cm_initout (f_cm s) ∪ {[d]}).
Definition nochild (co : cop) : Prop := match co with OChild _ _ => False | _ => True end.
Definition shape2 (s : fstate) (e : list cevent) (s' : fstate) : Prop :=
  (e = [] /\ exists M, f_cm s' = set_children (f_cm s) M) \/
  exists cm co, step cm co = Ok (f_cm s', e) /\ nochild co /\ (cm = f_cm s \/ exists d, co = OOnInit d true /\ cm = set_initout (f_cm s) (cm_initout (f_cm s) ∪ {[d]})).
Lemma s2_manage s e s' fo ea co s1 s2 l : pre2 s co s1 -> manage fo ea s1 co = Ok (s2, e) -> s' = push s2 l -> nochild co -> shape2 s e s'.
Proof. intros Hp Hm -> Hn. apply manage_keeps in Hm as (_ & _ & _ & _ & Hst). right. exists (f_cm s1), co. by split; [|split]. Qed.
Lemma s2_m s e s' fo ea co s1 : manage fo ea s1 co = Ok (s', e) -> pre2 s co s1 -> nochild co -> shape2 s e s'.
Proof. intros Hm Hp Hn. eapply (s2_manage _ _ _ _ _ _ _ s' []); [exact Hp|exact Hm|by rewrite push_nil|done]. Qed.
Lemma s2_s s e s' s1 : Ok (s1, []) = Ok (s', e) -> soft s s1 -> shape2 s e s'.
Proof. intros H [Hs _ _ _ _ _ _ _]. injection H as <- <-. left. by split. Qed.
Lemma p2_refl s co : pre2 s co s.
Proof. by left. Qed.
Lemma step_shape2 s o s' e : fstep s o = Ok (s', e) -> shape2 s e s'.
Proof.
  intros H. destruct o as [fo ea|cfg|a|ok fo ea subs ask abn esc|d abn esc|d|d f|d|d|d|d|id|d| | | | | | |m ask| |]; cbn [FamilyModel.fstep] in H.
  - eapply s2_m; [exact H|apply p2_refl|done].
  - eapply s2_m; [exact H|apply p2_refl|done].
  - destruct (a =? 0).
    + eapply s2_s; [exact H|]. destruct (_ && _); [|apply soft_refl]. apply soft_push; try done; by intros [?|?].
    + destruct (_ !! a); (eapply s2_s; [exact H|]); [|apply soft_refl]. destruct (_ <? _); [|apply soft_refl]. apply soft_from. intros x Hx. apply elem_of_list_singleton in Hx as ->. split; [by intros [?|?]|done].
  - destruct (f_q s) as [|m q] eqn:Hq; [eapply s2_s; [exact H|apply soft_refl]|].
    assert (Hpre : forall co, pre2 s co (set_q s q)) by (intros co; by left).
    assert (Hbye : forall x, (if decide (0 ∈ f_bye (set_q s q)) then Ok (set_q s q, []) else x) = Ok (s', e) -> shape2 s e s' \/ x = Ok (s', e)).
    { intros x Hx. destruct (decide (0 ∈ f_bye (set_q s q))) as [Hb|]; [left|by right]. eapply s2_s; [exact Hx|]. eapply soft_pop; [exact Hq|]. by intros _. }
    assert (Hin : m ∈ f_q s) by (rewrite Hq; left).
    destruct m as [d|a|d|d f|d|a|d|d|d|d|d]; unfold deliver in H.
    + apply Hbye in H as [H|H]; [done|]. eapply s2_m; [exact H|by apply Hpre|done].
    + apply Hbye in H as [H|H]; [done|]. eapply s2_m; [exact H|by apply Hpre|done].
    + destruct (N.eqb_spec d 0) as [->|Hd].
      * apply Hbye in H as [H|H]; [done|]. eapply s2_m; [exact H|by apply Hpre|done].
      * eapply s2_s; [exact H|]. eapply soft_trans; [by eapply soft_pop|apply soft_to|apply to_mono].
    + apply Hbye in H as [H|H]; [done|]. destruct (decide _); [|eapply s2_s; [exact H|by eapply soft_pop]]. eapply s2_m; [exact H|by left|done].
    + apply Hbye in H as [H|H]; [done|]. eapply s2_m; [exact H| |done]. right. by exists d.
    + apply Hbye in H as [H|H]; [done|]. eapply s2_m; [exact H|apply Hpre|done].
    + eapply s2_s; [exact H|]. eapply soft_trans; [by eapply soft_pop|apply soft_to|apply to_mono].
    + apply Hbye in H as [H|H]; [done|]. destruct (decide _); [|eapply s2_s; [exact H|by eapply soft_pop]]. unfold confirm in H.
      destruct (FamilyModel.manage0 _ _ _ _ _) as [[s1 e1]| |] eqn:H1; try done. cbn in H. injection H as <- <-.
      eapply (s2_manage _ _ _ _ _ _ _ s1 (if subs then [MUnsub d] else [])); [|exact H1|by destruct subs; rewrite ?push_nil|done]; by left.
    + apply Hbye in H as [H|H]; [done|]. unfold confirm in H.
      destruct (FamilyModel.manage0 _ _ _ _ _) as [[s1 e1]| |] eqn:H1; try done. cbn in H. injection H as <- <-.
      eapply (s2_manage _ _ _ _ _ _ _ s1 (if subs then [MUnsub d] else [])); [|exact H1|by destruct subs; rewrite ?push_nil|done]; by left.
    + apply Hbye in H as [H|H]; [done|]. eapply s2_m; [exact H|by apply Hpre|done].
    + destruct (N.eqb_spec d 0) as [->|Hd].
      * eapply s2_s; [exact H|]. eapply (soft_trans s (set_q s q)); [by eapply soft_pop| |]; [|cbn; set_solver]. split; try done; [by apply same_kids| |by left]. intros d. cbn. set_solver.
      * eapply s2_s; [exact H|]. eapply soft_trans; [by eapply soft_pop|apply soft_to|apply to_mono].
  - destruct (downl s d) as [|m l]; (eapply s2_s; [exact H|]); [apply soft_refl|]. eapply soft_trans; [apply soft_down|apply soft_handles|apply handles_mono].
  - destruct (upl s d) as [|m l] eqn:Hd; (eapply s2_s; [exact H|]); [apply soft_refl|].
    assert (Hdm : forall x, infl (push (set_up s (<[d:=l]> (f_up s))) [m]) x <-> infl s x).
    { intros x. rewrite infl_app. unfold infl, upl. cbn. split.
      - intros [[?|[y Hy]]|Hx]; [tauto|..]; right.
        + destruct (decide (d = y)) as [->|Hne]; [rewrite lookup_insert in Hy; cbn in Hy; exists y; change (x ∈ upl s y); rewrite Hd; by right|rewrite lookup_insert_ne in Hy by done; by exists y].
        + apply elem_of_list_singleton in Hx as ->. exists d. change (m ∈ upl s d). rewrite Hd. left.
      - intros [?|[y Hy]]; [tauto|]. destruct (decide (d = y)) as [->|Hne].
        + change (x ∈ upl s y) in Hy. rewrite Hd in Hy. apply elem_of_cons in Hy as [->|Hy]; [right; left|]. left. right. exists y. by rewrite lookup_insert.
        + left. right. exists y. by rewrite lookup_insert_ne. }
    split; try done; [by apply same_kids|..].
    + intros x _ Hx. by apply Hdm.
    + intros x Hx. left. by apply Hdm.
    + intros _ Hx. by apply Hdm.
  - destruct (child_ready _ _ _) as [ch|] eqn:Hch; [|eapply s2_s; [exact H|apply soft_refl]]. apply ready_at in Hch as (Hch & Hst & Hd0). destruct (ch_initreq _); (eapply s2_s; [exact H|]); [|apply soft_refl].
    eapply soft_trans; [|apply soft_from|by rewrite from_bye]; [eapply soft_evolve; [exact Hch|by rewrite Hst]|]. intros x Hx. apply elem_of_list_singleton in Hx as ->. split; [by intros [?|?]|].
    intros y [= <- ->]. unfold up3, state_of. cbn. rewrite lookup_insert. by eexists.
  - destruct (child_ready _ _ _) as [ch|] eqn:Hch; (eapply s2_s; [exact H|]); [apply ready_at in Hch as (Hch & Hst & Hd0); by eapply soft_evolve|apply soft_refl].
  - destruct (child_ready _ _ _) as [ch|] eqn:Hch; [|eapply s2_s; [exact H|apply soft_refl]]. apply ready_at in Hch as (Hch & Hst & Hd0). destruct (decide _); (eapply s2_s; [exact H|]); [|apply soft_refl].
    eapply soft_trans; [|apply soft_from|by rewrite from_bye]; [by eapply soft_evolve|]. intros x Hx. apply elem_of_list_singleton in Hx as ->. split; [by intros [?|?]|done].
  - eapply s2_s; [exact H|]. destruct (decide _); [|apply soft_refl]. apply soft_push; try done; by intros [?|?].
  - eapply s2_s; [exact H|]. destruct (decide _); [|apply soft_refl]. apply soft_push; try done; by intros [?|?].
  - eapply s2_m; [exact H|apply p2_refl|done].
  - eapply s2_m; [exact H|apply p2_refl|done].
  - eapply s2_m; [exact H|apply p2_refl|done].
  - destruct (_ && _); [|eapply s2_s; [exact H|apply soft_refl]]. destruct (FamilyModel.manage0 _ _ _ _ _) as [[s1 e1]| |] eqn:H1; try done. cbn in H. injection H as <- <-.
    eapply (s2_manage _ _ _ _ _ _ _ s1 (if hp then [] else [MInitResp 0 false])); [|exact H1|by destruct hp; rewrite ?push_nil|done]; by left.
  - eapply s2_m; [exact H|apply p2_refl|done].
  - apply if_or in H as [H|H]; [eapply s2_m; [exact H|apply p2_refl|done]|eapply s2_s; [exact H|apply soft_refl]].
  - apply if_or in H as [H|H]; [eapply s2_m; [exact H|apply p2_refl|done]|eapply s2_s; [exact H|apply soft_refl]].
  - case_bool_decide; [eapply s2_m; [exact H|apply p2_refl|done]|eapply s2_s; [exact H|apply soft_refl]].
  - case_bool_decide as Hp; [|eapply s2_s; [exact H|apply soft_refl]]. destruct (FamilyModel.manage0 _ _ _ _ _) as [[s1 e1]| |] eqn:H1; try done. cbn in H. injection H as <- <-.
    eapply (s2_manage _ _ _ _ _ _ _ s1 (if m then [MBye 0] else [])); [|exact H1|by destruct m; rewrite ?push_nil|done]; by left.
  - eapply s2_s; [exact H|]. destruct (bool_decide _); [|apply soft_refl]. apply soft_push; try done; by intros [?|?].
  - eapply s2_m; [exact H|apply p2_refl|done].
Qed.

Definition fon (c : N) (s : fstate) (ev : list cevent) : Prop := oall s ev /\ wonce c (f_cm s) ev /\ (starts c ev <= 1)%nat /\
  (EStart c ∈ ev -> if sync then past (cm_state (f_cm s)) else EInitOk c ∈ ev).
Lemma step_fon c s ev o s' e : c <> 0 -> fon c s ev -> orderly s o -> fstep s o = Ok (s', e) -> fon c s' (ev ++ e).
Proof.
  intros Hc (Ho & W & Hn & Hp) Hor H. split; [by eapply step_oall|]. destruct Ho as (Hf & _). pose proof (fi_all _ _ Hf) as Ha.
  apply step_shape2 in H as [(-> & M & E)|(cm & co & Hs & Hco & [->|(d & -> & Hcm)])].
  - rewrite app_nil_r, E. split; [|split; [done|exact Hp]]. destruct W. by split.
  - destruct (step_onest hp policy sync c (f_cm s) co (f_cm s') e ev) as (_ & A); [done|by split|done|exact A].
  - assert (Hv : cinv cm) by (rewrite Hcm; apply FlowProofs.cinv_initout; apply Ha). assert (E : eff cm (OOnInit d true) (f_cm s') e) by (eapply step_eff; [exact Hv|exact I|exact Hs]). pose proof (ef_kind _ _ _ _ E) as Hk. rewrite Forall_forall in Hk.
    assert (Hcr : created e = []). { apply created_none. intros x Hx. apply Hk in Hx as [_ [?|(? & ? & ?)]]; done. }
    assert (Eq : cm_createq (f_cm s') = cm_createq (f_cm s)). { pose proof (ef_createq _ _ _ _ E) as Hq. cbn in Hq. by rewrite Hq, Hcr, app_nil_r, Hcm. }
    assert (En : cm_next (f_cm s') = cm_next (f_cm s)). { destruct (ef_next _ _ _ _ E) as [->|(cfg & ? & _)]; [|done]. rewrite Hcr, Hcm. cbn. lia. }
    assert (Hok : EInitOk c ∉ e) by (intros Hx; by apply (ok_ops _ _ _ _ _ _ _ _ Hs) in Hx).
    assert (Hst : EStart c ∉ e) by (intros Hx; destruct (start_step _ _ _ _ _ _ _ _ Hs Hx) as [(? & _)|(? & _)]; done).
    assert (Hio : c ∈ cm_initout (f_cm s') -> c ∈ cm_initout (f_cm s)).
    { intros Hx. apply (ef_initout _ _ _ _ E) in Hx as [[Hx Hd]|Hx]; [|by apply Hk in Hx]. rewrite Hcm in Hx. cbn in Hx. apply elem_of_union in Hx as [?|Hx]; [done|]. apply elem_of_singleton in Hx. subst d. by destruct (Hd true). }
    split; [|split].
    + destruct W as [W1 W2 W3 W4 W5]. split; rewrite ?Eq, ?En; [done|done|..].
      * intros Hx. destruct (W3 Hx) as [A B]. split; [intros Hy; auto|]. by intros [?|?]%elem_of_app.
      * intros Hx. destruct (W4 (Hio Hx)) as [A B]. split; [done|]. by intros [?|?]%elem_of_app.
      * intros [Hx|?]%elem_of_app; [auto|done].
    + rewrite starts_app, (starts_none _ _ Hst). lia.
    + intros [Hx|?]%elem_of_app; [|done]. apply Hp in Hx. destruct sync; [|apply elem_of_app; by left]. eapply past_step; [exact Hs|]. by rewrite Hcm.
Qed.
Lemma fam_trig c ops s ev : c <> 0 -> guarded fstep orderly (finit hp) ops -> run fstep (finit hp) ops = Ok (s, ev) ->
  (starts c ev <= 1)%nat /\ (EStart c ∈ ev -> if sync then past (cm_state (f_cm s)) else EInitOk c ∈ ev).
Proof.
  intros Hc Hg H. assert (Hi : fon c s ev); [|by destruct Hi as (_ & _ & ?)].
  refine (run_inv_ev fstep orderly (fon c) _ ops (finit hp) [] s ev _ Hg H).
  - intros s0 ev0 o s1 e1 Hi Hor Hs. by eapply step_fon.
  - split; [split; [apply finv_init|]; split; [apply oinv_init|done]|]. split; [|split; [cbn; lia|intros Hx; by apply elem_of_nil in Hx]].
    split; cbn.
    + constructor.
    + intros x Hx. by apply elem_of_nil in Hx.
    + intros Hx. by apply elem_of_nil in Hx.
    + intros Hx. exfalso. assert (Hb : forall b : bool, c ∉ (if b then ∅ else {[0]} : gset N)) by (intros []; set_solver). by apply Hb in Hx.
    + intros Hx. by apply elem_of_nil in Hx.
Qed.
End fam.

Lemma tree_trig pol sync ops t ev n nd c : guarded (tstep pol sync) tidy tinit ops -> run (tstep pol sync) tinit ops = Ok (t, ev) -> t !! n = Some nd -> c <> 0 ->
  (starts c (n_ev nd) <= 1)%nat /\ (EStart c ∈ n_ev nd -> if sync n then past (sup_state nd) else answered (n_fam nd) c).
Proof.
  intros Hg H Hn Hc. pose proof (TreeProofs.tree_good pol sync ops t ev Hg H) as Ht. destruct (TreeProofs.te_node _ _ _ _ Ht n nd Hn) as [K1 K2 _].
  destruct (fam_trig _ _ _ c _ _ _ Hc K1 K2) as [A B]. split; [done|]. intros Hx. specialize (B Hx). destruct (sync n) eqn:Es; [done|]. exact (TriggerProofs.trig_free (hp n) (pol n) (sync n) _ _ _ c Es Hc K1 K2 Hx).
Qed.
