(** The invariant of one supervisor of the tree. *)
From stdpp Require Import base list gmap.
From Verif Require Import Base ChildMgrModel ChildMgrSpec ChildMgrProofs ChildMgrTrace ChildMgrFacts FamilyModel FamilySpec FamilySteps FamilyFold FamilyInv FamilyChild FamilyProofs FamilyInit TreeModel TreeSteps.
Open Scope N_scope.

(** What an operation does to child [c]. *)
Definition after (s : fstate) (o : fop) (c : N) : option child :=
  ch ← cm_children (f_cm s) !! c;
  Some match o with
  | FDeliver _ _ _ _ _ abn _ | FChild _ abn _ =>
      match downcall s o with
      | Some (d, FParentInit) => if d =? c then Child (ch_state ch) (ch_abn ch) true else ch
      | Some (d, FParentShutdown) =>
          if d =? c then Child AShuttingDown (match ch_abn ch with Some b => Some b | None => Some abn end) (ch_initreq ch) else ch
      | _ => ch
      end
  | FChildInit d f =>
      if (d =? c) && bool_decide (ch_state ch = AInitializing) && ch_initreq ch then Child (if f then AInitializing else AInitialized) (ch_abn ch) false else ch
  | FChildStart d => if (d =? c) && bool_decide (ch_state ch = AInitialized) then Child AOperational (ch_abn ch) (ch_initreq ch) else ch
  | FChildDone d =>
      if (d =? c) && bool_decide (ch_state ch = AShuttingDown) && bool_decide (c ∈ f_bye s) then Child AShutDown (ch_abn ch) (ch_initreq ch) else ch
  | _ => ch
  end.

Section inv.
Context (hp : bool) (policy : spolicy) (sync : bool).
Notation step := (cstep hp policy sync).
Notation fstep := (fstep hp policy sync).
Notation manage := (manage hp policy sync).
Notation manage0 := (manage0 hp policy sync).

Lemma manage_child fo ea s o s' e c : cinv (f_cm s) -> match o with OChild _ _ => False | _ => True end -> manage fo ea s o = Ok (s', e) -> c < cm_next (f_cm s) ->
  cm_children (f_cm s') !! c = cm_children (f_cm s) !! c.
Proof.
  intros Hv Ho H Hc. destruct (manage_keeps hp policy sync fo ea s o s' e H) as (_ & _ & _ & _ & Hst). pose proof (step_eff hp policy sync _ _ _ _ Hv Ho Hst) as E.
  apply (ef_old _ _ _ _ E). intros Hx. pose proof (ef_kind _ _ _ _ E) as Hk. rewrite Forall_forall in Hk. apply Hk in Hx as [? _]. lia.
Qed.
Lemma from_cm s c l : f_cm (from s c l) = f_cm s.
Proof. unfold from. by destruct (decide _). Qed.
Lemma own_cm s c l : f_cm (own s c l) = f_cm s.
Proof. unfold own. by destruct (decide _). Qed.
Lemma after_none s o c : (forall ch, match o with
  | FDeliver _ _ _ _ _ abn _ | FChild _ abn _ => downcall s o = None
  | FChildInit d _ | FChildStart d | FChildDone d => cm_children (f_cm s) !! c = Some ch -> d <> c
  | _ => True end) -> after s o c = cm_children (f_cm s) !! c.
Proof.
  intros H. unfold after. destruct (cm_children (f_cm s) !! c) as [ch|] eqn:Hch; [|done]. cbn. f_equal. specialize (H ch).
  destruct o; try done; try (by rewrite H); specialize (H eq_refl); apply N.eqb_neq in H; by rewrite H.
Qed.

Lemma handles_child s c m abn esc d : 
  cm_children (f_cm (child_handles s c m abn esc)) !! d =
  ch ← cm_children (f_cm s) !! d;
  Some match handled s c m with
       | Some (x, FParentInit) => if x =? d then Child (ch_state ch) (ch_abn ch) true else ch
       | Some (x, FParentShutdown) => if x =? d then Child AShuttingDown (match ch_abn ch with Some b => Some b | None => Some abn end) (ch_initreq ch) else ch
       | _ => ch
       end.
Proof.
  unfold child_handles, handled. destruct (decide (c ∈ f_bye s)); [by destruct (cm_children (f_cm s) !! d)|].
  destruct (cm_children (f_cm s) !! c) as [ch|] eqn:Hch.
  - destruct m; try (by destruct (cm_children (f_cm s) !! d)); cbn.
    + destruct (N.eqb_spec c d) as [->|Hne]; [rewrite lookup_insert, Hch; done|rewrite lookup_insert_ne by done; by destruct (_ !! d)].
    + rewrite own_cm. destruct esc; rewrite ?from_cm; cbn; (destruct (N.eqb_spec c d) as [->|Hne]; [rewrite lookup_insert, Hch; done|rewrite lookup_insert_ne by done; by destruct (_ !! d)]).
    + by destruct (_ !! d).
  - destruct (decide (c = d)) as [->|Hne]; [by rewrite Hch|]. destruct (cm_children (f_cm s) !! d); [|done]. cbn. apply N.eqb_neq in Hne. destruct m; by rewrite ?Hne.
Qed.
Lemma to_child_child s c m abn esc d : m = MInitReq c \/ m = MShutReq c \/ m = MBye c -> 
  cm_children (f_cm (to_child s c m abn esc)) !! d =
  ch ← cm_children (f_cm s) !! d;
  Some match (if bool_decide (c ∈ f_foreign s) then None else handled s c m) with
       | Some (x, FParentInit) => if x =? d then Child (ch_state ch) (ch_abn ch) true else ch
       | Some (x, FParentShutdown) => if x =? d then Child AShuttingDown (match ch_abn ch with Some b => Some b | None => Some abn end) (ch_initreq ch) else ch
       | _ => ch
       end.
Proof.
  intros Hm. unfold to_child. destruct (decide (c ∈ f_foreign s)) as [Hf|Hf].
  - rewrite bool_decide_true by done. cbn. by destruct (_ !! d).
  - rewrite bool_decide_false by done. apply handles_child.
Qed.
Lemma weak_cinv s ev x : allinv False s ev -> cinv (set_initout s x).
Proof. intros Ha. assert (Hw : allinv False (set_initout s x) ev) by (by apply allinv_weak with s). apply Hw. Qed.

Ltac mc := match goal with Hv : cinv _, H : _ = Ok _, Hc : _ < _ |- _ => eapply manage_child; [exact Hv| |exact H|exact Hc]; exact I end.
Lemma step_child s ev o s' e c : allinv False (f_cm s) ev -> fstep s o = Ok (s', e) -> c < cm_next (f_cm s) -> c <> 0 -> cm_children (f_cm s') !! c = after s o c.
Proof.
  intros Ha H Hc Hc0. pose proof (ai_c _ _ _ Ha) as Hv.
  assert (Hid : after s o c = cm_children (f_cm s) !! c -> cm_children (f_cm s') !! c = cm_children (f_cm s) !! c -> cm_children (f_cm s') !! c = after s o c) by congruence.
  destruct o as [fo ea|cfg|a|ok fo ea subs ask abn esc|d abn esc|d|d f|d|d|d|d|id|d| | | | | | |m ask| |]; cbn [FamilyModel.fstep] in H.
  - apply Hid; [by apply after_none|]. mc.
  - apply Hid; [by apply after_none|]. mc.
  - apply Hid; [by apply after_none|]. destruct (a =? 0); [|destruct (_ !! a)]; injection H as <- <-; [by destruct (_ && _)|destruct (_ <? _); by rewrite ?from_cm|done].
  - destruct (f_q s) as [|m q] eqn:Hq.
    { injection H as <- <-. apply Hid; [|done]. apply after_none. intros ?. cbn. by rewrite Hq. }
    set (o := FDeliver _ _ _ _ _ _ _) in *.
    assert (Hm : forall fo ea s1 co, f_cm s1 = f_cm s \/ (exists x, f_cm s1 = set_initout (f_cm s) x) -> match co with OChild _ _ => False | _ => True end -> downcall s o = None ->
      manage fo ea s1 co = Ok (s', e) -> cm_children (f_cm s') !! c = after s o c).
    { intros fo' ea' s1 co Hs1 Hco Hd Hmg. rewrite after_none by (intros ?; exact Hd). assert (Hv1 : cinv (f_cm s1)) by (destruct Hs1 as [->|[x ->]]; [done|by eapply weak_cinv]).
      erewrite manage_child; [|exact Hv1|exact Hco|exact Hmg|]; [by destruct Hs1 as [->|[x ->]]|by destruct Hs1 as [->|[x ->]]]. }
    assert (Hnop : forall s1 e1, Ok (set_q s q, []) = Ok (s1, e1 : list cevent) -> downcall s o = None -> cm_children (f_cm s1) !! c = after s o c).
    { intros s1 e1 Hx Hd. injection Hx as <- <-. rewrite after_none by (intros ?; exact Hd). done. }
    assert (Hto : forall d m', m' = m -> (m = MInitReq d \/ m = MShutReq d \/ m = MBye d) -> d <> 0 -> Ok (to_child (set_q s q) d m abn esc, []) = Ok (s', e) -> cm_children (f_cm s') !! c = after s o c).
    { intros d m' _ Hmd Hd Hx. injection Hx as <- _. rewrite to_child_child by done. unfold after. cbn [f_cm set_q f_foreign].
      destruct (cm_children (f_cm s) !! c) as [ch|]; [|done]. cbn -[downcall]. unfold downcall, o. rewrite Hq. apply N.eqb_neq in Hd.
      destruct Hmd as [->|[->| ->]]; rewrite ?Hd; cbn [orb]; try done. destruct (bool_decide _); [done|]. unfold handled. by destruct (decide _). }
    assert (Hbye : forall x, (if decide (0 ∈ f_bye (set_q s q)) then Ok (set_q s q, []) else x) = Ok (s', e) -> (Ok (set_q s q, []) = Ok (s', e) \/ x = Ok (s', e))).
    { intros x Hx. destruct (decide _); auto. }
    destruct m as [d|a|d|d f|d|a|d|d|d|d|d]; unfold deliver in H.
    + apply Hbye in H as [H|H]; [by eapply Hnop; [exact H|unfold downcall, o; by rewrite Hq]|]. eapply (Hm false false (set_q s q)); [by left| |unfold downcall, o; by rewrite Hq|exact H]; done.
    + apply Hbye in H as [H|H]; [by eapply Hnop; [exact H|unfold downcall, o; by rewrite Hq]|]. eapply (Hm _ _ (set_q s q)); [by left| |unfold downcall, o; by rewrite Hq|exact H]; done.
    + destruct (N.eqb_spec d 0) as [->|Hd]; [|by eapply Hto; eauto].
      apply Hbye in H as [H|H]; [by eapply Hnop; [exact H|unfold downcall, o; by rewrite Hq]|]. eapply (Hm _ _ (set_q s q)); [by left| |unfold downcall, o; by rewrite Hq|exact H]; done.
    + apply Hbye in H as [H|H]; [by eapply Hnop; [exact H|unfold downcall, o; by rewrite Hq]|]. destruct (decide _).
      * eapply Hm; [| |unfold downcall, o; by rewrite Hq|exact H]; [by left|done].
      * by eapply Hnop; [exact H|unfold downcall, o; by rewrite Hq].
    + apply Hbye in H as [H|H]; [by eapply Hnop; [exact H|unfold downcall, o; by rewrite Hq]|].
      eapply Hm; [| |unfold downcall, o; by rewrite Hq|exact H]; [right; by eexists|done].
    + apply Hbye in H as [H|H]; [by eapply Hnop; [exact H|unfold downcall, o; by rewrite Hq]|]. eapply (Hm _ _ (set_q s q)); [by left| |unfold downcall, o; by rewrite Hq|exact H]; done.
    + destruct (decide (d = 0)) as [->|Hd]; [|by eapply Hto; eauto]. injection H as <- _. rewrite to_child_child by auto. rewrite after_none by (intros ?; unfold downcall, o; by rewrite Hq).
      cbn [f_cm set_q]. destruct (cm_children (f_cm s) !! c); [|done]. cbn. f_equal. apply not_eq_sym, N.eqb_neq in Hc0. unfold handled. destruct (bool_decide _); [done|]. destruct (decide _); [done|]. by rewrite Hc0.
    + apply Hbye in H as [H|H]; [by eapply Hnop; [exact H|unfold downcall, o; by rewrite Hq]|]. destruct (decide _); [|by eapply Hnop; [exact H|unfold downcall, o; by rewrite Hq]].
      unfold confirm in H. destruct (FamilyModel.manage0 _ _ _ _ _) as [[s1 e1]| |] eqn:H1; try done. cbn in H. injection H as <- <-.
      assert (Hg : cm_children (f_cm s1) !! c = after s o c).
      { rewrite after_none by (intros ?; unfold downcall, o; by rewrite Hq). by eapply (manage_child _ _ (set_shut (set_q s q) (f_shut (set_q s q) ∖ {[d]}))) in H1. }
      by destruct subs.
    + apply Hbye in H as [H|H]; [by eapply Hnop; [exact H|unfold downcall, o; by rewrite Hq]|].
      unfold confirm in H. destruct (FamilyModel.manage0 _ _ _ _ _) as [[s1 e1]| |] eqn:H1; try done. cbn in H. injection H as <- <-.
      assert (Hg : cm_children (f_cm s1) !! c = after s o c).
      { rewrite after_none by (intros ?; unfold downcall, o; by rewrite Hq). by eapply (manage_child _ _ (set_q s q)) in H1. }
      by destruct subs.
    + apply Hbye in H as [H|H]; [by eapply Hnop; [exact H|unfold downcall, o; by rewrite Hq]|]. eapply (Hm _ _ (set_q s q)); [by left| |unfold downcall, o; by rewrite Hq|exact H]; done.
    + destruct (N.eqb_spec d 0) as [->|Hd]; [|by eapply Hto; eauto]. injection H as <- _. rewrite after_none by (intros ?; unfold downcall, o; by rewrite Hq). done.
  - destruct (downl s d) as [|m l] eqn:Hd.
    + injection H as <- <-. apply Hid; [|done]. apply after_none. intros ?. cbn. by rewrite Hd.
    + injection H as <- <-. rewrite handles_child. unfold after. cbn. rewrite Hd. done.
  - apply Hid; [by apply after_none|]. destruct (upl s d); injection H as <- <-; done.
  - unfold child_ready in H. destruct (cm_children (f_cm s) !! d) as [ch|] eqn:Hch.
    + case_bool_decide as Hr.
      * destruct (ch_initreq ch) eqn:Hi.
        -- injection H as <- <-. rewrite from_cm. unfold after. cbn. destruct (N.eqb_spec d c) as [->|Hne].
           ++ rewrite lookup_insert, Hch. cbn. destruct Hr as [Hr _]. rewrite Hr, Hi. cbn. by destruct f.
           ++ rewrite lookup_insert_ne by done. by destruct (_ !! c).
        -- injection H as <- <-. unfold after. cbn. destruct (N.eqb_spec d c) as [->|Hne]; [rewrite Hch; cbn; by rewrite Hi, andb_false_r|by destruct (_ !! c)].
      * injection H as <- <-. unfold after. cbn. destruct (N.eqb_spec d c) as [->|Hne]; [rewrite Hch; cbn; rewrite bool_decide_false; [done|tauto]|by destruct (_ !! c)].
    + injection H as <- <-. apply Hid; [|done]. apply after_none. intros ch Hx ->. congruence.
  - unfold child_ready in H. destruct (cm_children (f_cm s) !! d) as [ch|] eqn:Hch.
    + case_bool_decide as Hr.
      * injection H as <- <-. unfold after. cbn. destruct (N.eqb_spec d c) as [->|Hne].
        -- rewrite lookup_insert, Hch. cbn. destruct Hr as [Hr _]. by rewrite Hr.
        -- rewrite lookup_insert_ne by done. by destruct (_ !! c).
      * injection H as <- <-. unfold after. cbn. destruct (N.eqb_spec d c) as [->|Hne]; [rewrite Hch; cbn; rewrite bool_decide_false; [done|tauto]|by destruct (_ !! c)].
    + injection H as <- <-. apply Hid; [|done]. apply after_none. intros ch Hx ->. congruence.
  - unfold child_ready in H. destruct (cm_children (f_cm s) !! d) as [ch|] eqn:Hch.
    + case_bool_decide as Hr.
      * destruct (decide (d ∈ f_bye s)) as [Hb|Hb].
        -- injection H as <- <-. rewrite from_cm. unfold after. cbn. destruct (N.eqb_spec d c) as [->|Hne].
           ++ rewrite lookup_insert, Hch. cbn. destruct Hr as [Hr _]. by rewrite Hr, (bool_decide_true (c ∈ f_bye s)) by done.
           ++ rewrite lookup_insert_ne by done. by destruct (_ !! c).
        -- injection H as <- <-. unfold after. cbn. destruct (N.eqb_spec d c) as [->|Hne]; [rewrite Hch; cbn; by rewrite (bool_decide_false (c ∈ f_bye s)), andb_false_r by done|by destruct (_ !! c)].
      * injection H as <- <-. unfold after. cbn. destruct (N.eqb_spec d c) as [->|Hne]; [rewrite Hch; cbn; rewrite bool_decide_false; [done|tauto]|by destruct (_ !! c)].
    + injection H as <- <-. apply Hid; [|done]. apply after_none. intros ch Hx ->. congruence.
  - apply Hid; [by apply after_none|]. destruct (decide _); injection H as <- <-; done.
  - apply Hid; [by apply after_none|]. destruct (decide _); injection H as <- <-; done.
  - apply Hid; [by apply after_none|]. mc.
  - apply Hid; [by apply after_none|]. mc.
  - apply Hid; [by apply after_none|]. mc.
  - apply Hid; [by apply after_none|]. destruct (_ && _); [|by injection H as <- <-]. destruct (FamilyModel.manage0 _ _ _ _ _) as [[s1 e1]| |] eqn:H1; try done. cbn in H. injection H as <- <-.
    eapply manage_child in H1; try done. by destruct hp.
  - apply Hid; [by apply after_none|]. mc.
  - apply Hid; [by apply after_none|]. apply if_or in H as [H|H]; [mc|by injection H as <- <-].
  - apply Hid; [by apply after_none|]. apply if_or in H as [H|H]; [mc|by injection H as <- <-].
  - apply Hid; [by apply after_none|]. apply if_or in H as [H|H]; [mc|by injection H as <- <-].
  - apply Hid; [by apply after_none|]. destruct (bool_decide _); [|by injection H as <- <-]. destruct (FamilyModel.manage0 _ _ _ _ _) as [[s1 e1]| |] eqn:H1; try done. cbn in H. injection H as <- <-.
    eapply (manage_child _ _ (set_phase s PLeft)) in H1; try done. by destruct m.
  - apply Hid; [by apply after_none|]. destruct (bool_decide _); by injection H as <- <-.
  - apply Hid; [by apply after_none|]. mc.
Qed.

(** ** The shape of a step *)
Definition badm (m : fmsg) : Prop := m = MInitReq 0 \/ m = MCreate 0.
Definition special (o : fop) : bool := match o with FParentInit | FParentShutdown | FInitialized | FStarted | FShutDown => true | _ => false end.
Record pre (s : fstate) (co : cop) (s1 : fstate) : Prop := {
  pr_cm : f_cm s1 = f_cm s \/ exists x, f_cm s1 = set_initout (f_cm s) x;
  pr_bye : f_bye s1 = f_bye s;
  pr_up : f_up s1 = f_up s;
  pr_q : f_q s1 = f_q s \/ exists m, f_q s = m :: f_q s1 /\ (m = MTrigger 0 -> co = OTrigger 0);
  pr_phase : f_phase s1 = f_phase s \/ (f_phase s = PAgreed /\ f_phase s1 = PLeft)
}.
Definition fits (s : fstate) (o : fop) (co : cop) : Prop :=
  match co with
  | OCreate => exists fo ea, o = FCreate fo ea
  | OSpawn cfg => o = FSpawn cfg
  | OVoteShutdown => o = FVote /\ f_phase s = PWorking
  | OState _ | OHandleStart => special o = true
  | OInitRequest => special o = true \/ MInitReq 0 ∈ f_q s
  | OOnCreate c => MCreate c ∈ f_q s
  | OOnInit c f => f = false -> MInitResp c false ∈ f_q s
  | OChild _ _ => False
  | _ => True
  end.
(** The child has answered its init request well, or is past that. *)
Definition up3 (s : fstate) (c : N) : Prop := exists st, state_of s c = Some st /\ 3 <= rank st.
Record soft (s s' : fstate) : Prop := {
  so_cm : exists M, f_cm s' = set_children (f_cm s) M;
  so_phase : f_phase s' = f_phase s;
  so_dom : forall c, known s' c -> known s c;
  so_bye : forall c, c ∈ f_bye s -> c ∈ f_bye s';
  so_bad : forall m, badm m -> infl s' m -> infl s m;
  so_ok : forall c, infl s' (MInitResp c false) -> infl s (MInitResp c false) \/ up3 s' c;
  so_up : forall c, up3 s c -> up3 s' c;
  so_trig : 0 ∉ f_bye s' -> infl s (MTrigger 0) -> infl s' (MTrigger 0)
}.
Inductive shape (s : fstate) (o : fop) (e : list cevent) (s' : fstate) : Prop :=
| sh_manage fo ea co s1 s2 l : pre s co s1 -> manage fo ea s1 co = Ok (s2, e) -> s' = push s2 l -> fits s o co -> (forall m, m ∈ l -> ~ badm m /\ forall c f, m = MInitResp c f -> c = 0) -> shape s o e s'
| sh_soft : e = [] -> soft s s' -> shape s o e s'.

Lemma infl_app s l m : infl (push s l) m <-> infl s m \/ m ∈ l.
Proof. unfold infl, push, upl. cbn. rewrite elem_of_app. tauto. Qed.
Lemma infl_from s c l m : infl (from s c l) m <-> infl s m \/ m ∈ l.
Proof.
  unfold from. destruct (decide _); [|apply infl_app]. unfold infl, upl. cbn. split.
  - intros [?|[d Hd]]; [tauto|]. destruct (decide (c = d)) as [->|Hne].
    + rewrite lookup_insert in Hd. cbn in Hd. apply elem_of_app in Hd as [?|?]; [|tauto]. left. right. by exists d.
    + rewrite lookup_insert_ne in Hd by done. left. right. by exists d.
  - intros [[?|[d Hd]]|Hl]; [tauto|..]; right.
    + exists d. destruct (decide (c = d)) as [->|Hne]; [rewrite lookup_insert; cbn; apply elem_of_app; by left|by rewrite lookup_insert_ne].
    + exists c. rewrite lookup_insert. cbn. apply elem_of_app. by right.
Qed.
Lemma infl_down s x m : infl (set_down s x) m <-> infl s m.
Proof. done. Qed.
Lemma infl_evolve s c ch m : infl (evolve s c ch) m <-> infl s m.
Proof. done. Qed.
Lemma infl_own s c l m : infl (own s c l) m -> infl s m \/ m ∈ l.
Proof. unfold own. destruct (decide _); [by left|]. by rewrite infl_app. Qed.
Lemma own_infl s c l m : infl s m -> infl (own s c l) m.
Proof. unfold own. destruct (decide _); [done|]. rewrite infl_app. by left. Qed.

Lemma same_kids s s' : f_cm s' = f_cm s -> exists M, f_cm s' = set_children (f_cm s) M.
Proof. intros ->. exists (cm_children (f_cm s)). by destruct (f_cm s). Qed.
Lemma soft_refl s : soft s s.
Proof. split; try done; [by apply same_kids|auto]. Qed.
Lemma soft_pop s m q : f_q s = m :: q -> (m = MTrigger 0 -> 0 ∈ f_bye s) -> soft s (set_q s q).
Proof.
  intros Hq Hm. split; try done; [by apply same_kids|..].
  - intros x _ [Hx|Hx]; [left; rewrite Hq; by right|by right].
  - intros c [Hx|Hx]; left; [left; rewrite Hq; by right|by right].
  - intros Hb [Hx|Hx]; [|by right]. rewrite Hq in Hx. apply elem_of_cons in Hx as [<-|Hx]; [exfalso; by apply Hb, Hm|by left].
Qed.
Lemma soft_trans s s1 s2 : soft s s1 -> soft s1 s2 -> (0 ∈ f_bye s1 -> 0 ∈ f_bye s2) -> soft s s2.
Proof.
  intros [[M1 A1] A2 A5 A6 A3 A7 A8 A4] [[M2 B1] B2 B5 B6 B3 B7 B8 B4] Hb. split; [exists M2; by rewrite B1, A1|congruence|auto..| | |].
  - intros c Hi. apply B7 in Hi as [Hi|?]; [|by right]. apply A7 in Hi as [?|?]; auto.
  - auto.
  - intros Hn Hx. apply B4, A4; auto.
Qed.
Lemma from_bye s c l : f_bye (from s c l) = f_bye s.
Proof. unfold from. by destruct (decide _). Qed.
Lemma from_up s c l d : up3 (from s c l) d <-> up3 s d.
Proof. unfold up3, state_of. by rewrite from_cm. Qed.
Lemma own_up s c l d : up3 (own s c l) d <-> up3 s d.
Proof. unfold up3, state_of. by rewrite own_cm. Qed.
Lemma soft_from s c l : (forall m, m ∈ l -> ~ badm m /\ forall d, m = MInitResp d false -> up3 s d) -> soft s (from s c l).
Proof.
  intros Hl. split; [|by unfold from; destruct (decide _)|..].
  - apply same_kids, from_cm.
  - intros d. unfold known. by rewrite from_cm.
  - intros d. by rewrite from_bye.
  - intros m Hm Hi. apply infl_from in Hi as [?|Hi]; [done|]. by apply Hl in Hi as [? _].
  - intros d Hi. apply infl_from in Hi as [?|Hi]; [by left|right]. apply Hl in Hi as [_ Hi]. apply from_up. by apply Hi.
  - intros d Hd. by apply from_up.
  - intros _ Hx. apply infl_from. by left.
Qed.
Lemma soft_push s s0 m : f_cm s0 = f_cm s -> f_phase s0 = f_phase s -> f_bye s0 = f_bye s -> f_q s0 = f_q s -> f_up s0 = f_up s -> ~ badm m -> (forall d, m <> MInitResp d false) -> soft s (push s0 [m]).
Proof.
  intros H1 H2 H3 H4 H5 Hm1 Hm2.
  assert (Hi : forall x, infl (push s0 [m]) x <-> infl s x \/ x = m).
  { intros x. rewrite infl_app, elem_of_list_singleton. unfold infl, upl. by rewrite H4, H5. }
  assert (Hu : forall c, up3 (push s0 [m]) c <-> up3 s c) by (intros c; unfold up3, state_of; cbn; by rewrite H1).
  split; cbn; try done.
  - by apply same_kids.
  - intros c. unfold known. cbn. by rewrite H1.
  - intros c. by rewrite H3.
  - intros x Hx Hin. apply Hi in Hin as [?| ->]; done.
  - intros c Hin. apply Hi in Hin as [?|Hin]; [by left|]. by destruct (Hm2 c).
  - intros c Hc. by apply Hu.
  - intros _ Hx. apply Hi. by left.
Qed.
Lemma soft_evolve s c ch ch' : cm_children (f_cm s) !! c = Some ch -> (3 <= rank (ch_state ch) -> 3 <= rank (ch_state ch')) -> soft s (evolve s c ch').
Proof.
  intros Hk Hr. split; try done; [by eexists|..].
  - intros d. unfold known. cbn. destruct (decide (c = d)) as [->|]; [by rewrite Hk|by rewrite lookup_insert_ne].
  - intros d. by left.
  - intros d (st & Hd & Hst). unfold up3, state_of in *. cbn. destruct (decide (c = d)) as [->|]; [|rewrite lookup_insert_ne by done; by exists st].
    rewrite lookup_insert. rewrite Hk in Hd. cbn in *. injection Hd as <-. eexists. split; [done|auto].
Qed.
Lemma soft_down s x : soft s (set_down s x).
Proof. split; try done; [by apply same_kids|auto]. Qed.
Lemma own_bye s c l : f_bye (own s c l) = f_bye s.
Proof. unfold own. by destruct (decide _). Qed.
Lemma handles_mono s c m abn esc x : x ∈ f_bye s -> x ∈ f_bye (child_handles s c m abn esc).
Proof.
  intros Hx. unfold child_handles. destruct (decide _); [done|]. destruct (_ !! c); [|done]. destruct m; try done.
  - rewrite own_bye. destruct esc; by rewrite ?from_bye.
  - cbn. set_solver.
Qed.
Lemma soft_handles s c m abn esc : soft s (child_handles s c m abn esc).
Proof.
  unfold child_handles. destruct (decide _); [apply soft_refl|]. destruct (_ !! c) as [ch|] eqn:Hch; [|apply soft_refl].
  destruct m; try apply soft_refl.
  - by eapply soft_evolve.
  - set (s1 := if esc then _ else _). assert (H1 : soft s s1).
    { unfold s1. destruct esc; [|by eapply soft_evolve]. eapply soft_trans; [|apply soft_from|by rewrite from_bye]; [by eapply soft_evolve|].
      intros x Hx. apply elem_of_list_singleton in Hx as ->. split; [by intros [?|?]|done]. }
    eapply soft_trans; [exact H1| |by rewrite own_bye]. split.
    + apply same_kids, own_cm.
    + unfold own. by destruct (decide _).
    + intros d. unfold known. by rewrite own_cm.
    + intros d. by rewrite own_bye.
    + intros x Hx Hi. apply infl_own in Hi as [?|Hi]; [done|]. apply elem_of_list_singleton in Hi as ->. by destruct Hx.
    + intros d Hi. apply infl_own in Hi as [?|Hi]; [by left|]. by apply elem_of_list_singleton in Hi.
    + intros d Hd. by apply own_up.
    + intros _ Hx. by apply own_infl.
  - split; try done; [by apply same_kids| |by left]. intros d. cbn. set_solver.
Qed.
Lemma soft_to s c m abn esc : soft s (to_child s c m abn esc).
Proof. unfold to_child. destruct (decide _); [apply soft_down|apply soft_handles]. Qed.
Lemma to_mono s c m abn esc x : x ∈ f_bye s -> x ∈ f_bye (to_child s c m abn esc).
Proof. intros Hx. unfold to_child. destruct (decide _); [done|by apply handles_mono]. Qed.

Lemma ready_at s c st ch : child_ready s c st = Some ch -> cm_children (f_cm s) !! c = Some ch /\ ch_state ch = st /\ c <> 0.
Proof. unfold child_ready. destruct (_ !! c); [|done]. case_bool_decide as Hx; [|done]. intros [= ->]. by destruct Hx. Qed.
Lemma push_nil s : push s [] = s.
Proof. unfold push, set_q. rewrite app_nil_r. by destruct s. Qed.
Lemma pre_refl s co : pre s co s.
Proof. split; auto. Qed.
Lemma sh_m s o e s' fo ea co s1 : manage fo ea s1 co = Ok (s', e) -> pre s co s1 -> fits s o co -> shape s o e s'.
Proof. intros Hm Hp Hf. eapply (sh_manage s o e s' fo ea co s1 s' []); try done; [by rewrite push_nil|]. intros m Hx. by apply elem_of_nil in Hx. Qed.
Lemma sh_s s o e s' s1 : Ok (s1, []) = Ok (s', e) -> soft s s1 -> shape s o e s'.
Proof. intros H Hs. injection H as <- <-. by apply sh_soft. Qed.

Lemma step_shape s o s' e : fstep s o = Ok (s', e) -> shape s o e s'.
Proof.
  intros H. destruct o as [fo ea|cfg|a|ok fo ea subs ask abn esc|d abn esc|d|d f|d|d|d|d|id|d| | | | | | |m ask| |]; cbn [FamilyModel.fstep] in H.
  - eapply sh_m; [exact H|apply pre_refl|by eexists _, _].
  - eapply sh_m; [exact H|apply pre_refl|done].
  - destruct (a =? 0).
    + eapply sh_s; [exact H|]. destruct (_ && _); [|apply soft_refl]. apply soft_push; try done; by intros [?|?].
    + destruct (_ !! a); (eapply sh_s; [exact H|]); [|apply soft_refl]. destruct (_ <? _); [|apply soft_refl]. apply soft_from. intros x Hx. apply elem_of_list_singleton in Hx as ->. split; [by intros [?|?]|done].
  - destruct (f_q s) as [|m q] eqn:Hq; [eapply sh_s; [exact H|apply soft_refl]|].
    assert (Hpre : forall co, (m = MTrigger 0 -> co = OTrigger 0) -> pre s co (set_q s q)).
    { intros co Hm. split; auto. right. exists m. split; [exact Hq|exact Hm]. }
    assert (Hbye : forall x, (if decide (0 ∈ f_bye (set_q s q)) then Ok (set_q s q, []) else x) = Ok (s', e) -> shape s (FDeliver ok fo ea subs ask abn esc) e s' \/ x = Ok (s', e)).
    { intros x Hx. destruct (decide (0 ∈ f_bye (set_q s q))) as [Hb|]; [left|by right]. eapply sh_s; [exact Hx|]. eapply soft_pop; [exact Hq|]. by intros _. }
    assert (Hin : m ∈ f_q s) by (rewrite Hq; left).
    destruct m as [d|a|d|d f|d|a|d|d|d|d|d]; unfold deliver in H.
    + apply Hbye in H as [H|H]; [done|]. eapply sh_m; [exact H|by apply Hpre|done].
    + apply Hbye in H as [H|H]; [done|]. eapply sh_m; [exact H|by apply Hpre|done].
    + destruct (N.eqb_spec d 0) as [->|Hd].
      * apply Hbye in H as [H|H]; [done|]. eapply sh_m; [exact H|by apply Hpre|by right].
      * eapply sh_s; [exact H|]. eapply soft_trans; [by eapply soft_pop|apply soft_to|apply to_mono].
    + apply Hbye in H as [H|H]; [done|]. destruct (decide _); [|eapply sh_s; [exact H|by eapply soft_pop]]. eapply sh_m; [exact H| |by intros ->].
      split; auto; cbn. right. by exists (MInitResp d f).
    + apply Hbye in H as [H|H]; [done|]. eapply sh_m; [exact H| |done]. split; auto; cbn; [right; by eexists|]. right. by exists (MInitTimeout d).
    + apply Hbye in H as [H|H]; [done|]. eapply sh_m; [exact H|apply Hpre|done]. by intros [= ->].
    + eapply sh_s; [exact H|]. eapply soft_trans; [by eapply soft_pop|apply soft_to|apply to_mono].
    + apply Hbye in H as [H|H]; [done|]. destruct (decide _); [|eapply sh_s; [exact H|by eapply soft_pop]]. unfold confirm in H.
      destruct (FamilyModel.manage0 _ _ _ _ _) as [[s1 e1]| |] eqn:H1; try done. cbn in H. injection H as <- <-.
      eapply (sh_manage _ _ _ _ _ _ _ _ s1 (if subs then [MUnsub d] else [])); [|exact H1|by destruct subs; rewrite ?push_nil|done|].
      * split; auto; cbn. right. by exists (MShutResp d).
      * intros x Hx. destruct subs; [apply elem_of_list_singleton in Hx as ->; split; [by intros [?|?]|done]|by apply elem_of_nil in Hx].
    + apply Hbye in H as [H|H]; [done|]. unfold confirm in H.
      destruct (FamilyModel.manage0 _ _ _ _ _) as [[s1 e1]| |] eqn:H1; try done. cbn in H. injection H as <- <-.
      eapply (sh_manage _ _ _ _ _ _ _ _ s1 (if subs then [MUnsub d] else [])); [|exact H1|by destruct subs; rewrite ?push_nil|done|].
      * by apply Hpre.
      * intros x Hx. destruct subs; [apply elem_of_list_singleton in Hx as ->; split; [by intros [?|?]|done]|by apply elem_of_nil in Hx].
    + apply Hbye in H as [H|H]; [done|]. eapply sh_m; [exact H|by apply Hpre|done].
    + destruct (N.eqb_spec d 0) as [->|Hd].
      * eapply sh_s; [exact H|]. eapply (soft_trans s (set_q s q)); [by eapply soft_pop| |]; [|cbn; set_solver]. split; try done; [by apply same_kids| |by left]. intros d. cbn. set_solver.
      * eapply sh_s; [exact H|]. eapply soft_trans; [by eapply soft_pop|apply soft_to|apply to_mono].
  - destruct (downl s d) as [|m l]; (eapply sh_s; [exact H|]); [apply soft_refl|]. eapply soft_trans; [apply soft_down|apply soft_handles|apply handles_mono].
  - destruct (upl s d) as [|m l] eqn:Hd; (eapply sh_s; [exact H|]); [apply soft_refl|].
    assert (Hdm : forall x, infl (push (set_up s (<[d:=l]> (f_up s))) [m]) x <-> infl s x).
    { intros x. rewrite infl_app. unfold infl, upl. cbn. split.
      - intros [[?|[y Hy]]|Hx]; [tauto|..]; right.
        + destruct (decide (d = y)) as [->|Hne]; [rewrite lookup_insert in Hy; cbn in Hy; exists y; change (x ∈ upl s y); rewrite Hd; by right|rewrite lookup_insert_ne in Hy by done; by exists y].
        + apply elem_of_list_singleton in Hx as ->. exists d. change (m ∈ upl s d). rewrite Hd. left.
      - intros [?|[y Hy]]; [tauto|]. destruct (decide (d = y)) as [->|Hne].
        + change (x ∈ upl s y) in Hy. rewrite Hd in Hy. apply elem_of_cons in Hy as [->|Hy]; [right; left|]. left. right. exists y. by rewrite lookup_insert.
        + left. right. exists y. by rewrite lookup_insert_ne. }
    split; try done; [by apply same_kids|..].
    + intros x _ Hx. by apply Hdm.
    + intros x Hx. left. by apply Hdm.
    + intros _ Hx. by apply Hdm.
  - destruct (child_ready _ _ _) as [ch|] eqn:Hch; [|eapply sh_s; [exact H|apply soft_refl]]. apply ready_at in Hch as (Hch & Hst & Hd0). destruct (ch_initreq _); (eapply sh_s; [exact H|]); [|apply soft_refl].
    eapply soft_trans; [|apply soft_from|by rewrite from_bye]; [eapply soft_evolve; [exact Hch|by rewrite Hst]|]. intros x Hx. apply elem_of_list_singleton in Hx as ->. split; [by intros [?|?]|].
    intros y [= <- ->]. unfold up3, state_of. cbn. rewrite lookup_insert. by eexists.
  - destruct (child_ready _ _ _) as [ch|] eqn:Hch; (eapply sh_s; [exact H|]); [apply ready_at in Hch as (Hch & Hst & Hd0); by eapply soft_evolve|apply soft_refl].
  - destruct (child_ready _ _ _) as [ch|] eqn:Hch; [|eapply sh_s; [exact H|apply soft_refl]]. apply ready_at in Hch as (Hch & Hst & Hd0). destruct (decide _); (eapply sh_s; [exact H|]); [|apply soft_refl].
    eapply soft_trans; [|apply soft_from|by rewrite from_bye]; [by eapply soft_evolve|]. intros x Hx. apply elem_of_list_singleton in Hx as ->. split; [by intros [?|?]|done].
  - eapply sh_s; [exact H|]. destruct (decide _); [|apply soft_refl]. apply soft_push; try done; by intros [?|?].
  - eapply sh_s; [exact H|]. destruct (decide _); [|apply soft_refl]. apply soft_push; try done; by intros [?|?].
  - eapply sh_m; [exact H|apply pre_refl|done].
  - eapply sh_m; [exact H|apply pre_refl|done].
  - eapply sh_m; [exact H|apply pre_refl|done].
  - destruct (_ && _); [|eapply sh_s; [exact H|apply soft_refl]]. destruct (FamilyModel.manage0 _ _ _ _ _) as [[s1 e1]| |] eqn:H1; try done. cbn in H. injection H as <- <-.
    eapply (sh_manage _ _ _ _ _ _ _ _ s1 (if hp then [] else [MInitResp 0 false])); [apply pre_refl|exact H1|by destruct hp; rewrite ?push_nil|done|].
    intros x Hx. destruct hp; [by apply elem_of_nil in Hx|apply elem_of_list_singleton in Hx as ->; split; [by intros [?|?]|by intros ? ? [= <- <-]]].
  - eapply sh_m; [exact H|apply pre_refl|done].
  - apply if_or in H as [H|H]; [eapply sh_m; [exact H|apply pre_refl|by left]|eapply sh_s; [exact H|apply soft_refl]].
  - apply if_or in H as [H|H]; [eapply sh_m; [exact H|apply pre_refl|done]|eapply sh_s; [exact H|apply soft_refl]].
  - case_bool_decide; [eapply sh_m; [exact H|apply pre_refl|done]|eapply sh_s; [exact H|apply soft_refl]].
  - case_bool_decide as Hp; [|eapply sh_s; [exact H|apply soft_refl]]. destruct (FamilyModel.manage0 _ _ _ _ _) as [[s1 e1]| |] eqn:H1; try done. cbn in H. injection H as <- <-.
    eapply (sh_manage _ _ _ _ _ _ _ _ s1 (if m then [MBye 0] else [])); [|exact H1|by destruct m; rewrite ?push_nil|done|].
    + split; auto.
    + intros x Hx. destruct m; [apply elem_of_list_singleton in Hx as ->; split; [by intros [?|?]|done]|by apply elem_of_nil in Hx].
  - eapply sh_s; [exact H|]. destruct (bool_decide _); [|apply soft_refl]. apply soft_push; try done; by intros [?|?].
  - eapply sh_m; [exact H|apply pre_refl|done].
Qed.
End inv.
