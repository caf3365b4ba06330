(** C78: a supervisor which initializes can become operational when nobody ends. *)
From stdpp Require Import base list gmap.
From Verif Require Import Base ChildMgrModel ChildMgrSpec ChildMgrProofs ChildMgrTrace ChildMgrFacts FamilyModel FamilySpec FamilySteps FamilyFold FamilyInv FamilyChild FamilyProofs FamilyInit TreeModel TreeSteps TreeInv TreeNode FamilyStartSpec FamilyStartProofs FamilyEndProofs FamilyEndMain FamilyUpSpec.
From Verif Require FlowSpec FlowInv FlowProofs.
Open Scope N_scope.

Section up.
Context (hp : bool) (policy : spolicy) (sync : bool).
Notation step := (cstep hp policy sync).
Notation fstep := (fstep hp policy sync).
Notation manage := (manage hp policy sync).
Notation births := FlowSpec.births.

(** ** The child manager *)
Definition mild (co : cop) : Prop :=
  match co with OOnSpawn _ ok => ok = true | OOnInit _ failed => failed = false | OOnCreate _ | OInitRequest | OHandleStart => True | OState st => st = AInitialized | _ => False end.
Definition slots (s : cstate) : nat := length (cm_spawnq s).
Lemma take_first_in a : forall l q, take_first a l = Some q -> a ∈ l /\ length l = S (length q).
Proof.
  induction l as [|x l IH]; intros q H; [done|]. cbn in H. destruct (N.eqb_spec x a) as [->|Hne]; [injection H as <-; split; [left|done]|].
  destruct (take_first a l) as [r|]; [|done]. cbn in H. injection H as <-. destruct (IH r eq_refl) as [H1 H2]. split; [by right|]. cbn. by rewrite H2.
Qed.
Lemma good_continue s : Forall good_event (init_continue s).
Proof. apply Forall_forall. intros x Hx. by apply init_cont_in in Hx as ->. Qed.
Lemma births_continue s : births (init_continue s) = 0%nat.
Proof. unfold init_continue. by destruct (_ && _). Qed.
Lemma births_app e e' : births (e ++ e') = (births e + births e')%nat.
Proof. apply FlowInv.births_app. Qed.
Definition kids_grow (s s' : cstate) : Prop :=
  forall c, cm_children s' !! c = cm_children s !! c \/ cm_children s' !! c = Some (Child AInitializing None false).
Lemma grow_same s s' : cm_children s' = cm_children s -> kids_grow s s'.
Proof. intros H c. left. by rewrite H. Qed.
Lemma mild_step s co s' e : cinv s -> mild co -> step s co = Ok (s', e) -> Forall good_event e /\ kids_grow s s' /\ (births e + slots s' <= slots s)%nat.
Proof.
  intros Hv Hm H. assert (Hno : Forall good_event [] /\ kids_grow s s /\ (births [] + slots s <= slots s)%nat) by (split_and!; [constructor|by apply grow_same|cbn; lia]).
  destruct co as [|cfg|a ok|a|a fl|a|a subs ask|a ask| | | |id|d| | |st|x ch|m ask]; try done; cbn in Hm; try subst.
  - cbn [cstep] in H. destruct (take_first a (cm_spawnq s)) as [q|] eqn:Hq; [|by injection H as <- <-]. apply take_first_in in Hq as [Ha Hl].
    destruct (v_q _ Hv a Ha) as (i & Hi & Hia & _). destruct (v_none _ Hv a i Hi Hia) as [sid Hs].
    unfold on_spawn in H. cbn [cm_map set_spawnq] in H. rewrite Hi in H. destruct (negb (ci_active i)); [injection H as <- <-; split_and!; [constructor|by apply grow_same|cbn; unfold slots in *; cbn; lia]|].
    rewrite Hs in H. rewrite bool_decide_true in H by (by eexists). cbn [andb create_child] in H. injection H as <- <-. split_and!.
    + repeat constructor.
    + intros c. cbn. destruct (decide (c = cm_next s)) as [->|Hne]; [right; apply lookup_insert|left; by apply lookup_insert_ne].
    + cbn. unfold slots in *. cbn. lia.
  - cbn [cstep] in H. destruct (take_first a (cm_createq s)) as [q|]; [|by injection H as <- <-]. unfold on_create in H. destruct (cm_map _ !! a); [|done]. injection H as <- <-.
    split_and!; [repeat constructor|by apply grow_same|cbn; unfold slots; cbn; lia].
  - cbn [cstep] in H. destruct (bool_decide (a ∈ cm_initout s)); [|by injection H as <- <-]. unfold on_init in H. cbn [negb andb] in H. set (s1 := set_initout s _) in H.
    destruct (cm_map s1 !! a) as [i|]; injection H as <- <-; (split; [|split; [by apply grow_same|]]).
    + constructor; [done|]. apply Forall_app. split; [destruct (if a =? 0 then _ else _); repeat constructor|]. destruct (negb (has_initializing s1)); [apply good_continue|constructor].
    + set (b := if a =? 0 then _ else _). set (l := if negb (has_initializing s1) then _ else _). assert (Hl : births l = 0%nat) by (unfold l; destruct (negb (has_initializing s1)); [apply births_continue|done]).
      clearbody l b. change (births (EInitOk a :: ?x)) with (births x). rewrite births_app, Hl. destruct b; unfold slots; cbn; lia.
    + cbn [app]. destruct (negb (has_initializing s1)); [apply good_continue|constructor].
    + cbn [app]. replace (births _) with 0%nat by (destruct (negb (has_initializing s1)); [by rewrite births_continue|done]). unfold slots. cbn. lia.
  - cbn [cstep] in H. destruct (bool_decide _); [|by injection H as <- <-]. unfold handle_start in H. destruct sync; injection H as <- <-; cbn.
    + split; [|split; [by apply grow_same|]].
      * constructor; [done|]. apply Forall_forall. intros x Hx. apply elem_of_list_omap in Hx as ([a i] & _ & Hx). by destruct (a =? 0); [|injection Hx as <-].
      * assert (Hz : forall l : list (N * cinfo), births (omap (fun '(a, _) => if a =? 0 then None else Some (EStart a)) l) = 0%nat).
        { induction l as [|[a i] l IH]; [done|]. cbn. by destruct (a =? 0). }
        unfold births in *. cbn. rewrite Hz. unfold slots. cbn. lia.
    + split_and!; [repeat constructor|by apply grow_same|unfold slots; cbn; lia].
  - cbn in H. injection H as <- <-. by destruct (bool_decide _); split_and!; [constructor|apply grow_same|cbn; unfold slots; cbn; lia|constructor|apply grow_same|cbn; lia].
  - cbn [cstep] in H. destruct (sup_moves _ _); injection H as <- <-; [|done]. split_and!; [constructor|by apply grow_same|cbn; unfold slots; cbn; lia].
Qed.
(** What stays as it is. *)
Lemma mild_state s co s' e : mild co -> match co with OState _ | OHandleStart => False | _ => True end -> step s co = Ok (s', e) -> Forall good_event e ->
  cm_state s' = cm_state s /\ (cm_initreq s = true -> cm_initreq s' = true).
Proof.
  intros Hm Ho H He. assert (Hd : co = OInitRequest \/ co <> OInitRequest) by (destruct co; try (by right); by left). destruct Hd as [->|Hne].
  - cbn in H. injection H as <- _. by destruct (bool_decide _).
  - apply step_own in H; [|right; by destruct co|by destruct co]. destruct H as (H1 & [[H2 _]|(_ & _ & _ & H2)] & _); [split; [done|congruence]|].
    rewrite Forall_forall in He. by apply He in H2.
Qed.

(** ** Its messages *)
Lemma news_app l l' : Forall good_news l -> Forall good_news l' -> Forall good_news (l ++ l').
Proof. intros. by apply Forall_app. Qed.
Lemma push_peace s l : peaceful s -> Forall good_news l -> peaceful (push s l).
Proof. intros (H1 & H2 & H3 & H4 & H5) Hl. split_and!; try done. by apply news_app. Qed.
Lemma upd_peace (f : gmap N (list fmsg)) c l : (forall d, Forall good_news (default [] (f !! d))) -> Forall good_news l -> forall d, Forall good_news (default [] (<[c := l]> f !! d)).
Proof. intros Hf Hl d. destruct (decide (c = d)) as [->|Hne]; [by rewrite lookup_insert|by rewrite lookup_insert_ne]. Qed.
Lemma from_peace s c l : peaceful s -> Forall good_news l -> peaceful (from s c l).
Proof.
  intros Hp Hl. unfold from. destruct (decide _); [|by apply push_peace]. destruct Hp as (H1 & H2 & H3 & H4 & H5). split_and!; try done.
  unfold upl. cbn. apply upd_peace; [exact H2|apply news_app; [apply (H2 c)|done]].
Qed.
Lemma react_peace fo s e : good_event e -> peaceful s -> peaceful (react hp fo false s e).
Proof.
  intros He Hp. destruct e; try done; cbn.
  - apply push_peace; [by destruct fo|repeat constructor].
  - apply (push_peace (set_init s (f_init s ∪ {[c]}))); [done|repeat constructor].
Qed.
Lemma fold_peace fo e : Forall good_event e -> forall s, peaceful s -> peaceful (foldl (react hp fo false) s e).
Proof. induction 1 as [|x e Hx _ IH]; intros s Hs; [done|]. cbn. by apply IH, react_peace. Qed.
Lemma manage_peace fo s co s' e : cinv (f_cm s) -> mild co -> peaceful s -> manage fo false s co = Ok (s', e) ->
  peaceful s' /\ Forall good_event e /\ (births e + slots (f_cm s') <= slots (f_cm s))%nat /\
  (match co with OState _ | OHandleStart => False | _ => True end -> cm_state (f_cm s') = cm_state (f_cm s) /\ (cm_initreq (f_cm s) = true -> cm_initreq (f_cm s') = true)).
Proof.
  intros Hv Hm Hp H. pose proof H as Hst. apply FamilyEndProofs.manage_cm in Hst. destruct (mild_step _ _ _ _ Hv Hm Hst) as (He & Hk & Hb). split; [|split; [done|split; [done|]]].
  - unfold FamilyModel.manage in H. destruct (step (f_cm s) co) as [[cm e1]| |] eqn:E; [|done..]. cbn in H. injection H as Hs ->.
    assert (Hcm : f_cm s' = cm) by (rewrite <-Hs; cbn; by rewrite fold_cm). rewrite Hcm in Hk.
    assert (Hx : peaceful (set_cm s cm)).
    { destruct Hp as (H1 & H2 & H3 & H4 & H5). split_and!; try done. intros c Hc. unfold state_of. cbn. destruct (Hk c) as [->| ->]; [by apply H5|done]. }
    apply (fold_peace fo e He) in Hx. destruct Hx as (H1 & H2 & H3 & H4 & H5). rewrite <-Hs. by split_and!.
  - intros Ho. by eapply mild_state.
Qed.

(** ** A step *)
Definition calm (s : fstate) (e : list cevent) (s' : fstate) : Prop :=
  peaceful s' /\ Forall good_event e /\ (births e + slots (f_cm s') <= slots (f_cm s))%nat.
Definition level (s s' : fstate) : Prop := cm_state (f_cm s') = cm_state (f_cm s) /\ (cm_initreq (f_cm s) = true -> cm_initreq (f_cm s') = true).
Definition carries (o : fop) : Prop := match o with FDeliver ok _ early _ _ _ _ => ok = true /\ early = false | FChildInit _ failed => failed = false | FChild _ _ _ | FUp _ => True | _ => False end.
Lemma evolve_peace s c ch : peaceful s -> ch_state ch <> AShuttingDown -> peaceful (evolve s c ch).
Proof.
  intros (H1 & H2 & H3 & H4 & H5) Hc. split_and!; try done. intros d Hd. unfold state_of. cbn. destruct (decide (c = d)) as [->|Hne].
  - rewrite lookup_insert. cbn. congruence.
  - rewrite lookup_insert_ne by done. by apply H5.
Qed.
Lemma handles_peace s c m abn esc : c <> 0 -> peaceful s -> good_news m -> (forall d, m = MInitReq d -> True) -> peaceful (child_handles s c m abn esc).
Proof.
  intros Hc Hp Hm _. unfold child_handles. destruct (decide _); [done|]. destruct (cm_children (f_cm s) !! c) as [ch|] eqn:Hch; [|done]. destruct m; try done.
  apply evolve_peace; [done|]. cbn. intros Hx. destruct Hp as (_ & _ & _ & _ & H5). apply (H5 c Hc). unfold state_of. rewrite Hch. cbn. by rewrite Hx.
Qed.
Lemma handles_level s c m abn esc : f_cm (child_handles s c m abn esc) = f_cm s \/ exists M, f_cm (child_handles s c m abn esc) = set_children (f_cm s) M.
Proof. right. apply FamilyEndProofs.handles_cm. Qed.
Lemma kids_calm s s' : (exists M, f_cm s' = set_children (f_cm s) M) -> peaceful s' -> calm s [] s' /\ level s s'.
Proof. intros [M E] Hp. split; [split; [done|split; [constructor|]]|split]; unfold slots; rewrite E; cbn; by try lia. Qed.
Lemma carry_step s o s' e : cinv (f_cm s) -> (forall c m, m ∈ downl s c -> c <> 0) -> peaceful s -> carries o -> fstep s o = Ok (s', e) -> calm s e s' /\ level s s'.
Proof.
  intros Hv Hd Hp Hc H. assert (Hsame : forall s1, f_cm s1 = f_cm s -> exists M, f_cm s1 = set_children (f_cm s) M).
  { intros s1 ->. exists (cm_children (f_cm s)). by destruct (f_cm s). }
  destruct o; try done; cbn [FamilyModel.fstep] in H; cbn in Hc; unfold manage0 in H.
  - destruct Hc as [-> ->]. destruct (f_q s) as [|m q] eqn:Hq; [injection H as <- <-; by apply kids_calm; [apply Hsame|]|].
    pose proof Hp as (P1 & P2 & P3 & P4 & P5). rewrite Hq in P1. apply Forall_cons in P1 as [Hm P1].
    assert (Hp' : peaceful (set_q s q)) by (by split_and!).
    assert (Htc : forall c m', c <> 0 -> good_news m' -> Ok (to_child (set_q s q) c m' abn esc, []) = Ok (s', e) -> calm s e s' /\ level s s').
    { intros c m' Hc0 Hm' H'. injection H' as <- <-. apply kids_calm; [apply (FamilyEndProofs.to_child_cm (set_q s q))|]. unfold to_child. destruct (decide _); [|by apply handles_peace].
      destruct Hp' as (R1 & R2 & R3 & R4 & R5). split_and!; try done. unfold downl. cbn. apply upd_peace; [exact R3|]. apply news_app; [apply R3|by repeat constructor]. }
    assert (Hma : forall t co, f_cm t = f_cm s -> peaceful t -> mild co -> match co with OState _ | OHandleStart => False | _ => True end -> forall fo, manage fo false t co = Ok (s', e) -> calm s e s' /\ level s s').
    { intros t co Ht Htp Hmi Hno fo H'. destruct (manage_peace fo t co s' e ltac:(by rewrite Ht) Hmi Htp H') as (M1 & M2 & M3 & M4). rewrite Ht in M3, M4. split; [by split|]. by apply M4. }
    unfold deliver, manage0 in H. change (f_bye (set_q s q)) with (f_bye s) in H. rewrite !(decide_False _ _ P4) in H.
    destruct m as [c|a|c|c fl|c|a|c|c|c|c|c]; try done.
    + by eapply (Hma (set_q s q)); [..|exact H].
    + by eapply (Hma (set_q s q)); [..|exact H].
    + destruct (N.eqb_spec c 0) as [->|Hc0]; [|by eapply Htc; [..|exact H]]. by eapply (Hma (set_q s q)); [..|exact H].
    + destruct fl; [done|]. destruct (decide _); [|injection H as <- <-; by apply kids_calm; [apply Hsame|]].
      eapply Hma; [| | | |exact H]; try done.
  - destruct (downl s c) as [|m l] eqn:Hl; [injection H as <- <-; by apply kids_calm; [apply Hsame|]|]. injection H as <- <-.
    pose proof Hp as (P1 & P2 & P3 & P4 & P5). pose proof (P3 c) as Pc. rewrite Hl in Pc. apply Forall_cons in Pc as [Hm Pl].
    assert (Hp' : peaceful (set_down s (<[c := l]> (f_down s)))) by (split_and!; try done; unfold downl; cbn; by apply upd_peace).
    apply kids_calm; [apply (FamilyEndProofs.handles_cm (set_down s _))|]. apply handles_peace; try done. apply (Hd c m). rewrite Hl. left.
  - destruct (upl s c) as [|m l] eqn:Hl; [injection H as <- <-; by apply kids_calm; [apply Hsame|]|]. injection H as <- <-.
    pose proof Hp as (P1 & P2 & P3 & P4 & P5). pose proof (P2 c) as Pc. rewrite Hl in Pc. apply Forall_cons in Pc as [Hm Pl].
    apply kids_calm; [by apply Hsame|]. apply push_peace; [|by repeat constructor]. split_and!; try done. unfold upl. cbn. by apply upd_peace.
  - subst failed. destruct (child_ready s c AInitializing) as [ch|] eqn:Hr; [|injection H as <- <-; by apply kids_calm; [apply Hsame|]].
    destruct (ch_initreq ch); injection H as <- <-; [|by apply kids_calm; [apply Hsame|]].
    apply kids_calm; [rewrite FamilyEndProofs.from_cm; eexists; reflexivity|]. apply from_peace; [by apply evolve_peace|repeat constructor].
Qed.

(** ** The supervisor's own init request *)
Lemma from_q s c l m : m ∈ f_q s -> m ∈ f_q (from s c l).
Proof. intros Hm. unfold from. destruct (decide _); [done|]. apply elem_of_app. by left. Qed.
Lemma own_q s c l m : m ∈ f_q s -> m ∈ f_q (own s c l).
Proof. intros Hm. unfold own. destruct (decide _); [done|]. apply elem_of_app. by left. Qed.
Lemma handles_q s c x abn esc m : m ∈ f_q s -> m ∈ f_q (child_handles s c x abn esc).
Proof.
  intros Hm. unfold child_handles. destruct (decide _); [done|]. destruct (cm_children _ !! c); [|done]. destruct x; try done.
  apply own_q. destruct esc; [by apply from_q|done].
Qed.
Lemma to_child_q s c x abn esc m : m ∈ f_q s -> m ∈ f_q (to_child s c x abn esc).
Proof. intros Hm. unfold to_child. destruct (decide _); [done|]. by apply handles_q. Qed.
Lemma manage_q fo ea s co s' e m : manage fo ea s co = Ok (s', e) -> m ∈ f_q s -> m ∈ f_q s'.
Proof. intros H. by apply manage_keeps in H as [H _]; auto. Qed.
Lemma queue_kept s o s' e m : fstep s o = Ok (s', e) -> m ∈ f_q s ->
  m ∈ f_q s' \/ exists ok fo ea subs ask abn esc q, o = FDeliver ok fo ea subs ask abn esc /\ f_q s = m :: q.
Proof.
  intros H Hm. assert (Hsame : Ok (s, []) = Ok (s', e) -> m ∈ f_q s') by (intros H'; by injection H' as <- _).
  assert (Hpush : forall l, m ∈ f_q (push s l)) by (intros l; apply elem_of_app; by left).
  destruct o; cbn [FamilyModel.fstep] in H; unfold manage0 in H; try (left; by eapply manage_q).
  - left. destruct (a =? 0); [injection H as <- _; by destruct (_ && _)|]. destruct (cm_children (f_cm s) !! a) as [ch|]; [|auto]. injection H as <- _. destruct (_ <? _); [by apply from_q|done].
  - destruct (f_q s) as [|x q] eqn:Hq; [by apply elem_of_nil in Hm|]. apply elem_of_cons in Hm as [->|Hm]; [right; by eexists _, _, _, _, _, _, _, _|]. left.
    assert (Hm' : m ∈ f_q (set_q s q)) by exact Hm. assert (Hsame' : Ok (set_q s q, []) = Ok (s', e) -> m ∈ f_q s') by (intros H'; by injection H' as <- _).
    assert (Htc : forall c x', Ok (to_child (set_q s q) c x' abn esc, []) = Ok (s', e) -> m ∈ f_q s') by (intros c x' H'; injection H' as <- _; by apply to_child_q).
    assert (Hcf : forall t c, m ∈ f_q t -> confirm hp policy sync t c subs ask = Ok (s', e) -> m ∈ f_q s').
    { intros t c Ht H'. unfold confirm, manage0 in H'. destruct (manage false false t _) as [[s1 e1]| |] eqn:E1; [|done..]. cbn in H'. injection H' as <- _.
      pose proof (manage_q _ _ _ _ _ _ m E1 Ht). destruct subs; [apply elem_of_app; by left|done]. }
    unfold deliver, manage0 in H. destruct x as [c|a|c|c fl|c|a|c|c|c|c|c]; repeat (destruct (decide _); [|]); try (by auto); try (by eapply Htc); try (by eapply manage_q); try (by eapply Hcf; [|exact H]).
    + destruct (c =? 0); [by auto|by eapply Htc].
    + destruct (c =? 0); [by eapply manage_q|by eapply Htc].
    + destruct (c =? 0); [injection H as <- _; done|by eapply Htc].
  - left. destruct (downl s c) as [|x l]; injection H as <- _; [done|]. by apply handles_q.
  - left. destruct (upl s c) as [|x l]; injection H as <- _; [done|]. apply elem_of_app. by left.
  - left. destruct (child_ready s c AInitializing) as [ch|]; [|auto]. destruct (ch_initreq ch); [|auto]. injection H as <- _. by apply from_q.
  - left. destruct (child_ready s c AInitialized) as [ch|]; [|auto]. by injection H as <- _.
  - left. destruct (child_ready s c AShuttingDown) as [ch|]; [|auto]. destruct (decide _); [|auto]. injection H as <- _. by apply from_q.
  - left. injection H as <- _. destruct (decide _); [|done]. apply elem_of_app. by left.
  - left. injection H as <- _. destruct (decide _); [|done]. apply elem_of_app. by left.
  - left. destruct (_ && _); [|auto]. destruct (manage false false s _) as [[s1 e1]| |] eqn:E1; [|done..]. cbn in H. injection H as <- _. pose proof (manage_q _ _ _ _ _ _ m E1 Hm).
    revert H. generalize hp. intros [] H; [done|]. apply elem_of_app. by left.
  - left. assert (Hx : forall b : bool, (if b then manage false false s OInitRequest else Ok (s, [])) = Ok (s', e) -> m ∈ f_q s') by (intros [] Hx; [by eapply manage_q|auto]). by eapply Hx.
  - left. assert (Hx : forall b : bool, (if b then manage false false s (OState AShuttingDown) else Ok (s, [])) = Ok (s', e) -> m ∈ f_q s') by (intros [] Hx; [by eapply manage_q|auto]). by eapply Hx.
  - left. destruct (bool_decide _); [by eapply manage_q|auto].
  - left. destruct (bool_decide _); [|auto]. destruct (manage false false (set_phase s PLeft) _) as [[s1 e1]| |] eqn:E1; [|done..]. cbn in H. injection H as <- _.
    pose proof (manage_q _ _ _ _ _ _ m E1 Hm). destruct mapping_empty; [apply elem_of_app; by left|done].
  - left. injection H as <- _. destruct (bool_decide _); [|done]. apply elem_of_app. by left.
Qed.
(** Nobody but the parent can withhold it. *)
Definition requested (s : fstate) (ev : list cevent) : Prop :=
  hp = false -> cm_state (f_cm s) = AInitializing -> EInitError ∉ ev -> 0 ∉ f_bye s -> cm_initreq (f_cm s) = true \/ MInitReq 0 ∈ f_q s.

Lemma ireq_step s co s' e : hp = false -> match co with OChild _ _ => False | _ => True end -> step s co = Ok (s', e) -> cm_state s = AInitializing -> cm_state s' = AInitializing -> EInitError ∉ e ->
  cm_initreq s = true -> cm_initreq s' = true.
Proof.
  intros Hh Hno H Hs Hs' He Hq. destruct co as [|cfg|x ok|x|x fl|x|x subs ask|x ask| | | |id|d| | |st|x ch|m ask]; try done;
    try (apply step_own in H; [|by right|done]; destruct H as (_ & [[-> _]|(_ & _ & _ & ?)] & _); done).
  - cbn in H. unfold on_shutdown_trigger in H. destruct (cm_map s !! x) as [i|]; [|done]. unfold request_shutdown in H.
    destruct (ci_shut i); [|injection H as <- <-; done..]. destruct (ci_actor i) as [y|]; [|done]. destruct (cancel_own s y) as [K1 K2].
    destruct (y =? 0); [|injection H as <- <-; cbn; congruence]. rewrite Hh in H.
    destruct (bool_decide _); [injection H as <- <-; cbn; congruence|].
    destruct (request_shutdown_all _) as [s3 e3] eqn:Hall. injection H as <- <-. destruct (all_own (set_state (put_info (cancel_init s y) x (i_shut i SConfirmed)) AShuttingDown)) as (K & _).
    rewrite Hall in K. cbn in K. cbn in Hs'. congruence.
  - cbn in H. rewrite Hs in H. by injection H as <- <-.
  - cbn in H. rewrite Hs in H. by injection H as <- <-.
  - cbn in H. rewrite Hs in H. rewrite Hh in H. destruct (sup_moves false AInitializing st) eqn:E; injection H as <- <-; [|done]. cbn in Hs'. subst st. done.
Qed.
Lemma requested_step s ev o s' e : cm_state (f_cm s) <> ANew -> requested s ev -> fstep s o = Ok (s', e) -> requested s' (ev ++ e).
Proof.
  intros Hn Hr H Hh Hs' He Hb'. destruct (fsup_back hp policy sync s o s' e H Hn) as [_ Hsb]. specialize (Hsb Hs').
  assert (Hb : 0 ∉ f_bye s). { intros Hb. apply Hb'. apply step_shape in H as [fo ea co s1 s2 l P Hm -> _ _|_ So]; [|by apply So]. cbn.
    unfold FamilyModel.manage in Hm. destruct (step (f_cm s1) co) as [[cm e1]| |]; try done. cbn in Hm. injection Hm as <- _. cbn. rewrite fold_bye. cbn. by rewrite (pr_bye _ _ _ P). }
  assert (He0 : EInitError ∉ ev /\ EInitError ∉ e) by (split; intros Hx; apply He, elem_of_app; auto). destruct He0 as [He0 He1].
  destruct (Hr Hh Hsb He0 Hb) as [Hi|Hm].
  - left. apply step_shape in H as [fo ea co s1 s2 l P Hm -> Hfi _|_ So]; [|by destruct (so_cm _ _ So) as [M ->]].
    apply FamilyEndProofs.manage_cm in Hm. cbn in *. destruct (pr_cm _ _ _ P) as [Hc|[x Hc]]; rewrite Hc in Hm.
    + eapply ireq_step; [done| |exact Hm|done..]. by destruct co.
    + eapply ireq_step; [done| |exact Hm|done..]. by destruct co.
  - destruct (queue_kept _ _ _ _ _ H Hm) as [?|(ok & fo & ea & subs & ask & abn & esc & q & -> & Hq)]; [by right|]. left.
    cbn [FamilyModel.fstep] in H. rewrite Hq in H. cbn [deliver N.eqb] in H. rewrite decide_False in H by done. apply FamilyEndProofs.manage_cm in H. cbn in H. rewrite Hsb in H. by injection H as <- _.
Qed.
Definition reach (s : fstate) (ev : list cevent) : Prop := exists ops, guarded fstep orderly (finit hp) ops /\ run fstep (finit hp) ops = Ok (s, ev).
Lemma requested_reach s ev : reach s ev -> requested s ev.
Proof.
  intros (ops & Hg & H). enough (cm_state (f_cm s) <> ANew /\ requested s ev) by tauto.
  refine (run_inv_ev fstep orderly (fun s ev => cm_state (f_cm s) <> ANew /\ requested s ev) _ ops (finit hp) [] s ev _ Hg H).
  - intros s0 ev0 o s1 e1 [Ha Hb] _ Hs. split; [by eapply fsup_back in Hs as [? _]|by eapply requested_step].
  - split; [done|]. intros Hh _ _ _. right. cbn. rewrite Hh. left.
Qed.
Lemma reach_more s ev ops s' e : reach s ev -> guarded fstep orderly s ops -> run fstep s ops = Ok (s', e) -> reach s' (ev ++ e).
Proof.
  intros (ops0 & Hg0 & H0) Hg H. exists (ops0 ++ ops). split; [by eapply guarded_app|]. rewrite run_app, H0. cbn. by rewrite H.
Qed.
Lemma reach_oall s ev : reach s ev -> oall s ev.
Proof. intros (ops & Hg & H). by eapply fam_oall. Qed.

(** ** Until nothing is under way *)
Definition weight (s : fstate) : nat := (FlowInv.wfam s + 36 * slots (f_cm s))%nat.
Lemma carries_agreed s o : carries o -> agreed s o.
Proof. by destruct o. Qed.
Lemma agreed_orderly ops : forall s, guarded fstep agreed s ops -> guarded fstep orderly s ops.
Proof. induction ops as [|o ops IH]; intros s; [done|]. cbn. intros [[Ho _] Hg]. split; [done|]. destruct (fstep s o) as [[s1 e1]| |]; [by apply IH|done..]. Qed.
Lemma one_step s o s' e : agreed s o -> fstep s o = Ok (s', e) -> guarded fstep agreed s [o] /\ run fstep s [o] = Ok (s', e).
Proof. intros Ho H. cbn. rewrite H. cbn. rewrite app_nil_r. by split_and!. Qed.
Lemma reach_step s ev o s' e : reach s ev -> orderly s o -> fstep s o = Ok (s', e) -> reach s' (ev ++ e).
Proof. intros Hr Ho H. eapply (reach_more s ev [o]); [done|cbn; split; [done|by rewrite H]|cbn; rewrite H; cbn; by rewrite app_nil_r]. Qed.
Lemma reach_ok s ev o : reach s ev -> orderly s o -> exists s' e, fstep s o = Ok (s', e) /\ reach s' (ev ++ e).
Proof.
  intros Hr Ho. destruct (reach_oall _ _ Hr) as (Hf & _). destruct (step_fin hp policy sync s ev o Hf Ho) as (s' & e & H & _). exists s', e. split; [done|]. by eapply reach_step.
Qed.
Lemma reach_cinv s ev : reach s ev -> cinv (f_cm s).
Proof. intros Hr. destruct (reach_oall _ _ Hr) as (Hf & _). apply (ai_c _ _ _ (fi_all _ _ Hf)). Qed.
Lemma reach_down s ev : reach s ev -> peaceful s -> forall c m, m ∈ downl s c -> c <> 0.
Proof.
  intros Hr (_ & _ & _ & Hb & _) c m Hm ->. destruct (reach_oall _ _ Hr) as (Hf & _). pose proof (fi_rinv _ _ Hf Hb) as R.
  destruct (r_local _ _ _ R 0 (r_f0 _ _ _ R)) as [_ Hx]. rewrite Hx in Hm. by apply elem_of_nil in Hm.
Qed.
Lemma level_trans s1 s2 s3 : level s1 s2 -> level s2 s3 -> level s1 s3.
Proof. intros [A B] [C D]. split; [congruence|auto]. Qed.
Lemma carry_on s ev o : reach s ev -> peaceful s -> carries o -> exists s' e, fstep s o = Ok (s', e) /\ reach s' (ev ++ e) /\ calm s e s' /\ level s s' /\
  (moved s o + weight s' <= weight s)%nat.
Proof.
  intros Hr Hp Hc. assert (Ho : orderly s o) by (by destruct o). destruct (reach_ok s ev o Hr Ho) as (s' & e & H & Hr'). exists s', e. split; [done|]. split; [done|].
  pose proof (reach_cinv _ _ Hr) as Hv. destruct (carry_step s o s' e Hv (reach_down _ _ Hr Hp) Hp Hc H) as [Hca Hle]. split; [done|]. split; [done|].
  destruct (FlowProofs.fstep_cost hp policy sync s o s' e Hv H) as [Hw _]. assert (FlowSpec.outside o = 0%nat) as Ho0 by (by destruct o). destruct Hca as (_ & _ & Hb). unfold weight. lia.
Qed.
Definition D1 : fop := FDeliver true false false false false false false.
Lemma carrier s : under_way s -> exists o, carries o /\ moved s o = 1%nat.
Proof.
  intros [Hq|(c & [Hu|Hd])].
  - exists D1. split; [done|]. cbn. by destruct (f_q s).
  - exists (FUp c). split; [done|]. cbn. by destruct (upl s c).
  - exists (FChild c false false). split; [done|]. cbn. by destruct (downl s c).
Qed.
Definition comes (P : fop -> Prop) (s : fstate) (ev : list cevent) (s' : fstate) (e : list cevent) : Prop :=
  reach s' (ev ++ e) /\ peaceful s' /\ Forall good_event e /\ exists ops, Forall P ops /\ guarded fstep agreed s ops /\ run fstep s ops = Ok (s', e).
Lemma comes_trans P s ev s1 e1 s2 e2 : comes P s ev s1 e1 -> comes P s1 (ev ++ e1) s2 e2 -> comes P s ev s2 (e1 ++ e2).
Proof.
  intros (_ & _ & G1 & ops1 & A1 & B1 & C1) (R2 & P2 & G2 & ops2 & A2 & B2 & C2). split; [by rewrite (assoc_L (++))|]. split; [done|]. split; [by apply Forall_app|].
  exists (ops1 ++ ops2). split; [by apply Forall_app|]. split; [by eapply guarded_app|]. rewrite run_app, C1. cbn. by rewrite C2.
Qed.
Lemma comes_more (P Q : fop -> Prop) s ev s' e : (forall o, P o -> Q o) -> comes P s ev s' e -> comes Q s ev s' e.
Proof. intros H (R & Pe & G & ops & A & B & C). split_and!; try done. exists ops. split; [by eapply Forall_impl|done]. Qed.
Lemma comes_one (P : fop -> Prop) s ev o s' e : P o -> agreed s o -> fstep s o = Ok (s', e) -> reach s ev -> peaceful s' -> Forall good_event e -> comes P s ev s' e.
Proof.
  intros HP Ho H Hr Hp Hg. destruct (one_step s o s' e Ho H) as [H1 H2]. split; [eapply reach_step; [done| |done]; by destruct Ho|]. split; [done|]. split; [done|]. exists [o].
  split; [by repeat constructor|done].
Qed.
Lemma calm_down n : forall s ev, (weight s < n)%nat -> reach s ev -> peaceful s ->
  exists s' e, comes carries s ev s' e /\ settled s' /\ level s s' /\ (weight s' <= weight s)%nat /\ (under_way s -> (weight s' < weight s)%nat).
Proof.
  induction n as [|n IH]; intros s ev Hn Hr Hp; [lia|]. destruct (under_way_or s) as [Hu|[Hq Hl]].
  - destruct (carrier s Hu) as (o & Ho & Hm). destruct (carry_on s ev o Hr Hp Ho) as (s1 & e1 & H1 & Hr1 & (Hp1 & He1 & _) & Hl1 & Hw1).
    destruct (IH s1 (ev ++ e1) ltac:(lia) Hr1 Hp1) as (s2 & e2 & Hc & Hs & Hl2 & Hw2 & _). exists s2, (e1 ++ e2).
    split; [eapply comes_trans; [|exact Hc]; eapply comes_one; [exact Ho|by apply carries_agreed|done..]|]. split; [done|]. split; [by eapply level_trans|]. split; [lia|]. intros _. lia.
  - exists s, []. split; [|split; [|split; [by split|split; [lia|]]]].
    + split; [by rewrite app_nil_r|]. split; [done|]. split; [constructor|]. exists []. by split_and!; [constructor|..].
    + split; [done|]. split; [done|]. by destruct Hp as (_ & _ & _ & ? & _).
    + intros [?|(c & [?|?])]; [done|..]; by destruct (Hl c).
Qed.
Lemma good_fails ev e : ~ failed ev -> Forall good_event e -> ~ failed (ev ++ e).
Proof. intros Hn He Hf. rewrite Forall_forall in He. destruct Hf as [Hf|Hf]; apply elem_of_app in Hf as [Hf|Hf]; try (by apply He in Hf); apply Hn; [by left|by right]. Qed.

(** ** Until all the children have answered *)
Lemma all_answer n : forall s ev, (weight s < n)%nat -> reach s ev -> peaceful s -> ~ failed ev -> cm_state (f_cm s) = AInitializing ->
  exists s' e, comes carries s ev s' e /\ settled s' /\ level s s' /\ has_initializing (f_cm s') = false.
Proof.
  induction n as [|n IH]; intros s ev Hn Hr Hp Hf Hst; [lia|].
  destruct (calm_down (S n) s ev Hn Hr Hp) as (s1 & e1 & Hc1 & Hs1 & Hl1 & Hw1 & _).
  destruct (has_initializing (f_cm s1)) eqn:Hi; [|by exists s1, e1].
  pose proof Hc1 as (Hr1 & Hp1 & He1 & _). pose proof (reach_oall _ _ Hr1) as Ho1.
  assert (Hst1 : cm_state (f_cm s1) = AInitializing) by (destruct Hl1; congruence).
  destruct (waits_uninit (f_cm s1) (okey _ _ Ho1) (okids _ _ Ho1) Hi) as (a & ch & Hu & Hch & Hrk).
  assert (Hb : busy s1 a).
  { destruct Hr1 as (ops1 & G1 & R1). destruct (settled_uninit hp policy sync ops1 s1 (ev ++ e1) a G1 R1 Hs1) as [_ [Hx|[Hx|Hx]]]; [rewrite Hst1; cbn; lia|done|..|done|].
    - exfalso. by eapply good_fails.
    - exfalso. destruct Hp1 as (_ & _ & _ & _ & Hz). destruct Hu as [Ha0 _]. by apply (Hz a Ha0). }
  destruct Hb as (_ & ch' & Hch' & Hreq). rewrite Hch in Hch'. injection Hch' as <-. destruct Hu as [Ha0 _].
  assert (Hcs : ch_state ch = AInitializing).
  { destruct Ho1 as (_ & Ho & _). pose proof (o_new _ _ Ho a Ha0) as Hnew. unfold state_of in Hnew. rewrite Hch in Hnew. cbn in Hnew. destruct (ch_state ch); cbn in Hrk; try lia; done. }
  destruct (carry_on s1 (ev ++ e1) (FChildInit a false) Hr1 Hp1 eq_refl) as (s2 & e2 & H2 & Hr2 & (Hp2 & He2 & _) & Hl2 & Hw2). cbn [moved FlowSpec.moved] in Hw2.
  assert (Hu2 : under_way s2).
  { cbn [FamilyModel.fstep] in H2. unfold child_ready in H2. rewrite Hch, bool_decide_true, Hreq in H2 by done. injection H2 as <- <-. unfold from. cbn. destruct (decide (a ∈ f_foreign s1)).
    - right. exists a. left. unfold upl. cbn. rewrite lookup_insert. cbn. by destruct (default [] (f_up s1 !! a)).
    - left. cbn. by destruct (f_q s1). }
  destruct (calm_down (S (weight s2)) s2 ((ev ++ e1) ++ e2) ltac:(lia) Hr2 Hp2) as (s3 & e3 & Hc3 & Hs3 & Hl3 & Hw3 & Hw3'). specialize (Hw3' Hu2).
  assert (H13 : comes carries s ev s3 ((e1 ++ e2) ++ e3)).
  { eapply comes_trans; [eapply comes_trans; [exact Hc1|]|rewrite (assoc_L (++)); exact Hc3]. by eapply (comes_one carries s1 (ev ++ e1) (FChildInit a false)). }
  pose proof H13 as (Hr3 & Hp3 & He3 & _). assert (Hl13 : level s s3) by (eapply level_trans; [exact Hl1|]; by eapply level_trans).
  destruct (IH s3 _ ltac:(lia) Hr3 Hp3) as (s4 & e4 & Hc4 & Hs4 & Hl4 & Hi4); [by apply good_fails|destruct Hl13; congruence|].
  exists s4, (((e1 ++ e2) ++ e3) ++ e4). split; [by eapply comes_trans|]. split; [done|]. split; [by eapply level_trans|done].
Qed.

(** ** The end of the start *)
Lemma carries_smooth o : carries o -> smooth o.
Proof. by destruct o. Qed.
Lemma fam_up s ev : reach s ev -> cm_state (f_cm s) = AInitializing -> peaceful s -> ~ failed ev ->
  exists ops s' e, Forall smooth ops /\ guarded fstep agreed s ops /\ run fstep s ops = Ok (s', e) /\
    cm_state (f_cm s') = AOperational /\ ESupStart ∈ e /\ settled s' /\ peaceful s' /\ Forall good_event e.
Proof.
  intros Hr Hst Hp Hf. destruct (all_answer (S (weight s)) s ev ltac:(lia) Hr Hp Hf Hst) as (s1 & e1 & Hc1 & Hs1 & [Hl1 _] & Hi1).
  apply (comes_more _ smooth) in Hc1; [|apply carries_smooth]. rewrite Hst in Hl1. pose proof Hc1 as (Hr1 & Hp1 & He1 & _).
  assert (Hf1 : ~ failed (ev ++ e1)) by (by apply good_fails).
  (* the request of the parent *)
  assert (H2 : exists s2 e2, comes smooth s1 (ev ++ e1) s2 e2 /\ cm_state (f_cm s2) = AInitializing /\ cm_initreq (f_cm s2) = true /\ has_initializing (f_cm s2) = false).
  { destruct (cm_initreq (f_cm s1)) eqn:Hq.
    - exists s1, []. split; [|done]. split; [by rewrite app_nil_r|]. split; [done|]. split; [constructor|]. exists []. by split_and!; [constructor|..].
    - assert (Hh : hp = true).
      { destruct (decide (hp = true)) as [?|Hh]; [done|]. apply not_true_is_false in Hh. destruct Hs1 as (Sq & _ & Sb).
        destruct (requested_reach _ _ Hr1 Hh Hl1) as [Hx|Hx]; [|done|congruence|rewrite Sq in Hx; by apply elem_of_nil in Hx]. intros Hx. apply Hf1. by left. }
      destruct (reach_ok s1 (ev ++ e1) FParentInit Hr1 I) as (s2 & e2 & H2 & Hr2). exists s2, e2.
      assert (Hm : manage false false s1 OInitRequest = Ok (s2, e2)). { cbn [FamilyModel.fstep] in H2. unfold manage0 in H2. revert H2. generalize (manage false false s1 OInitRequest). rewrite Hh. done. }
      destruct (manage_peace false s1 OInitRequest s2 e2 (reach_cinv _ _ Hr1) I Hp1 Hm) as (Hp2 & He2 & _). split; [by eapply (comes_one smooth s1 _ FParentInit)|].
      apply FamilyEndProofs.manage_cm in Hm. cbn in Hm. rewrite Hl1 in Hm. injection Hm as <- _. done. }
  destruct H2 as (s2 & e2 & Hc2 & Hst2 & Hq2 & Hi2). assert (Hc12 : comes smooth s ev s2 (e1 ++ e2)) by (by eapply comes_trans). pose proof Hc12 as (Hr2 & Hp2 & He2 & _).
  (* the answer *)
  destruct (reach_ok s2 _ FInitialized Hr2 I) as (s3 & e3 & H3 & Hr3).
  assert (H3' : peaceful s3 /\ Forall good_event e3 /\ cm_state (f_cm s3) = AInitialized).
  { cbn [FamilyModel.fstep] in H3. unfold manage0 in H3. rewrite Hst2, Hq2 in H3. cbn [bool_decide andb] in H3. rewrite bool_decide_true in H3 by done. cbn [andb] in H3.
    destruct (manage false false s2 (OState AInitialized)) as [[t et]| |] eqn:Hm; [|done..]. cbn [rbind] in H3. injection H3 as <- <-.
    destruct (manage_peace false s2 (OState AInitialized) t et (reach_cinv _ _ Hr2) eq_refl Hp2 Hm) as (Hpt & Het & _).
    assert (Hb : forall b : bool, peaceful (if b then t else push t [MInitResp 0 false]) /\ f_cm (if b then t else push t [MInitResp 0 false]) = f_cm t).
    { intros []; [done|]. split; [|done]. apply push_peace; [done|]. repeat constructor. }
    destruct (Hb hp) as [Hb1 Hb2]. split; [exact Hb1|]. split; [done|]. rewrite Hb2. apply FamilyEndProofs.manage_cm in Hm. cbn in Hm. rewrite Hst2 in Hm. cbn in Hm. by injection Hm as <- _. }
  destruct H3' as (Hp3 & He3 & Hst3).
  assert (Hc3 : comes smooth s ev s3 ((e1 ++ e2) ++ e3)) by (eapply comes_trans; [exact Hc12|]; by eapply (comes_one smooth s2 _ FInitialized)).
  (* it arrives *)
  pose proof Hc3 as (Hr3' & _). destruct (calm_down (S (weight s3)) s3 _ ltac:(lia) Hr3' Hp3) as (s4 & e4 & Hc4 & Hs4 & [Hl4 _] & _).
  apply (comes_more _ smooth) in Hc4; [|apply carries_smooth]. assert (Hc04 : comes smooth s ev s4 (((e1 ++ e2) ++ e3) ++ e4)) by (by eapply comes_trans).
  pose proof Hc04 as (Hr4 & Hp4 & He4 & _). rewrite Hst3 in Hl4.
  (* and the supervisor starts *)
  destruct (reach_ok s4 _ FStarted Hr4 I) as (s5 & e5 & H5 & Hr5). cbn [FamilyModel.fstep] in H5. pose proof H5 as Hm. unfold manage0 in Hm.
  destruct (manage_peace false s4 OHandleStart s5 e5 (reach_cinv _ _ Hr4) I Hp4 Hm) as (Hp5 & He5 & _).
  assert (Hc05 : comes smooth s ev s5 ((((e1 ++ e2) ++ e3) ++ e4) ++ e5)) by (eapply comes_trans; [exact Hc04|]; by eapply (comes_one smooth s4 _ FStarted)).
  destruct Hc05 as (_ & _ & He & ops & Hops & Hg & Hrun). exists ops, s5, ((((e1 ++ e2) ++ e3) ++ e4) ++ e5). split; [done|]. split; [done|]. split; [done|].
  assert (Hx : cm_state (f_cm s5) = AOperational /\ exists l, e5 = ESupStart :: l /\ forall x, x ∈ l -> exists a, x = EStart a).
  { apply FamilyEndProofs.manage_cm in Hm. cbn -[handle_start] in Hm. rewrite bool_decide_true in Hm by done. unfold handle_start in Hm.
    revert Hm. generalize sync. intros [] Hm; injection Hm as <- <-; (split; [done|]); eexists; (split; [done|]); intros x Hx; [|by apply elem_of_nil in Hx].
    apply elem_of_list_omap in Hx as ([a i] & _ & Hx). destruct (a =? 0); [done|]. injection Hx as <-. by exists a. }
  destruct Hx as (Hst5 & l & Hl & Hla). split; [done|]. split; [apply elem_of_app; right; rewrite Hl; left|]. split; [|done].
  assert (Hq5 : f_q s5 = f_q s4 /\ f_up s5 = f_up s4 /\ f_down s5 = f_down s4).
  { unfold FamilyModel.manage in Hm. destruct (step (f_cm s4) OHandleStart) as [[cm ee]| |]; try done. cbn [rbind] in Hm. injection Hm as <- ->. rewrite Hl. clear -Hla. cbn.
    assert (Hz : forall t, foldl (react hp false false) t l = t); [|by rewrite Hz]. induction l as [|x l IH]; intros t; [done|]. cbn. destruct (Hla x ltac:(left)) as [a ->]. cbn. apply IH. intros y Hy. apply Hla. by right. }
  destruct Hq5 as (Q1 & Q2 & Q3), Hs4 as (S1 & S2 & S3). split; [congruence|]. split; [|by destruct Hp5 as (_ & _ & _ & ? & _)].
  intros c. unfold upl, downl. rewrite Q2, Q3. apply S2.
Qed.

(** ** Nothing goes wrong by itself *)
Lemma smooth_step s ev o s' e : reach s ev -> peaceful s -> smooth o -> fstep s o = Ok (s', e) -> peaceful s' /\ Forall good_event e.
Proof.
  intros Hr Hp Ho H. pose proof (reach_cinv _ _ Hr) as Hv. pose proof (reach_down _ _ Hr Hp) as Hd.
  assert (Hsame : Ok (s, []) = Ok (s', e) -> peaceful s' /\ Forall good_event e) by (intros H'; injection H' as <- <-; split; [done|constructor]).
  assert (Hm : forall t co, f_cm t = f_cm s -> peaceful t -> mild co -> manage false false t co = Ok (s', e) -> peaceful s' /\ Forall good_event e).
  { intros t co Ht Htp Hco H'. by destruct (manage_peace false t co s' e ltac:(by rewrite Ht) Hco Htp H') as (H1 & H2 & _). }
  assert (Hc : carries o -> peaceful s' /\ Forall good_event e) by (intros Hc; by destruct (carry_step s o s' e Hv Hd Hp Hc H) as [(H1 & H2 & _) _]).
  destruct o; try done; try (by apply Hc); cbn [FamilyModel.fstep] in H; unfold manage0 in H.
  - destruct (_ && _); [|auto]. destruct (manage false false s (OState AInitialized)) as [[t et]| |] eqn:E; [|done..]. cbn [rbind] in H.
    destruct (manage_peace false s (OState AInitialized) t et Hv eq_refl Hp E) as (H1 & H2 & _).
    assert (Hb : forall b : bool, Ok (if b then t else push t [MInitResp 0 false], et) = Ok (s', e) -> peaceful s' /\ Forall good_event e); [|by eapply Hb].
    intros [] H'; injection H' as <- <-; [done|]. split; [|done]. apply push_peace; [done|repeat constructor].
  - by eapply (Hm s OHandleStart).
  - assert (Hb : forall b : bool, (if b then manage false false s OInitRequest else Ok (s, [])) = Ok (s', e) -> peaceful s' /\ Forall good_event e); [|by eapply Hb].
    intros [] H'; [by eapply (Hm s OInitRequest)|auto].
Qed.
Lemma smooth_run ops : forall s ev s' e, reach s ev -> peaceful s -> Forall smooth ops -> run fstep s ops = Ok (s', e) -> reach s' (ev ++ e) /\ peaceful s' /\ Forall good_event e.
Proof.
  induction ops as [|o ops IH]; intros s ev s' e Hr Hp Ho H; cbn in H; [injection H as <- <-; rewrite app_nil_r; by split_and!|].
  apply Forall_cons in Ho as [Ho Hops]. destruct (fstep s o) as [[s1 e1]| |] eqn:H1; try done. cbn in H. destruct (run fstep s1 ops) as [[s2 e2]| |] eqn:H2; try done. cbn in H. injection H as <- <-.
  destruct (smooth_step s ev o s1 e1 Hr Hp Ho H1) as [Hp1 He1]. assert (Hr1 : reach s1 (ev ++ e1)) by (eapply reach_step; [done| |exact H1]; by destruct o).
  destruct (IH s1 (ev ++ e1) s2 e2 Hr1 Hp1 Hops H2) as (Hr2 & Hp2 & He2). rewrite (assoc_L (++)). split_and!; try done. by apply Forall_app.
Qed.
End up.

Lemma fam_starts hp policy sync ops s ev : guarded (fstep hp policy sync) orderly (finit hp) ops -> run (fstep hp policy sync) (finit hp) ops = Ok (s, ev) ->
  cm_state (f_cm s) = AInitializing -> peaceful s -> ~ failed ev ->
  exists ops' s' e, Forall smooth ops' /\ guarded (fstep hp policy sync) agreed s ops' /\ run (fstep hp policy sync) s ops' = Ok (s', e) /\
    cm_state (f_cm s') = AOperational /\ ESupStart ∈ e /\ settled s' /\ peaceful s' /\ Forall good_event e.
Proof. intros Hg Hr. apply fam_up. by exists ops. Qed.
Lemma fam_smooth hp policy sync ops s ev ops' s' e : guarded (fstep hp policy sync) orderly (finit hp) ops -> run (fstep hp policy sync) (finit hp) ops = Ok (s, ev) -> peaceful s ->
  Forall smooth ops' -> run (fstep hp policy sync) s ops' = Ok (s', e) -> peaceful s' /\ Forall good_event e.
Proof. intros Hg Hr Hp Ho H. destruct (smooth_run hp policy sync ops' s ev s' e) as (_ & ? & ?); try done. by exists ops. Qed.
Lemma fam_still hp policy sync ops s ev ops' s' e : guarded (fstep hp policy sync) orderly (finit hp) ops -> run (fstep hp policy sync) (finit hp) ops = Ok (s, ev) -> peaceful s -> ~ failed ev ->
  Forall smooth ops' -> run (fstep hp policy sync) s ops' = Ok (s', e) -> cm_state (f_cm s') = AInitializing ->
  exists ops2 s2 e2, Forall smooth ops2 /\ guarded (fstep hp policy sync) agreed s' ops2 /\ run (fstep hp policy sync) s' ops2 = Ok (s2, e2) /\ cm_state (f_cm s2) = AOperational.
Proof.
  intros Hg Hr Hp Hf Ho H Hst. destruct (smooth_run hp policy sync ops' s ev s' e) as (R & P & G); try done; [by exists ops|].
  destruct (fam_up hp policy sync s' (ev ++ e) R Hst P) as (ops2 & s2 & e2 & A & B & C & D & _); [by apply good_fails|]. by exists ops2, s2, e2.
Qed.
Lemma fam_requested policy sync ops s ev : guarded (fstep false policy sync) orderly (finit false) ops -> run (fstep false policy sync) (finit false) ops = Ok (s, ev) ->
  cm_state (f_cm s) = AInitializing -> EInitError ∉ ev -> 0 ∉ f_bye s -> cm_initreq (f_cm s) = true \/ MInitReq 0 ∈ f_q s.
Proof. intros Hg Hr. apply (requested_reach false policy sync s ev); [by exists ops|done]. Qed.
