(** Proofs of C83: one start trigger for one actor. *)
From stdpp Require Import base list gmap.
From Verif Require Import Base ChildMgrModel ChildMgrSpec ChildMgrProofs ChildMgrTrace ChildMgrFacts FamilyModel FamilySpec FamilySteps FamilyFold FamilyInv.
From Verif Require Import TreeAllSpec TreeLateProofs TriggerSpec.
From Verif Require TreeNode TreeSteps FamilyOnce.
Open Scope N_scope.

Section once.
Context (hp : bool) (policy : spolicy) (sync : bool).
Notation step := (cstep hp policy sync).
Lemma starts_app c l l' : starts c (l ++ l') = (starts c l + starts c l')%nat.
Proof. unfold starts. by rewrite List.filter_app, app_length. Qed.
Lemma starts_none c l : EStart c ∉ l -> starts c l = 0%nat.
Proof.
  induction l as [|x l IH]; intros H; [done|]. unfold starts in *. cbn. rewrite bool_decide_false; [|intros ->; apply H; left]. apply IH. intros Hx. apply H. by right.
Qed.

Record wonce (c : N) (s : cstate) (ev : list cevent) : Prop := {
  wo_dup : NoDup (cm_createq s);
  wo_lt : forall x, x ∈ cm_createq s -> x < cm_next s;
  wo_cq : c ∈ cm_createq s -> c ∉ cm_initout s /\ EInitOk c ∉ ev;
  wo_io : c ∈ cm_initout s -> c < cm_next s /\ EInitOk c ∉ ev;
  wo_ok : EInitOk c ∈ ev -> c < cm_next s }.
Lemma created_one s o s' e : Forall (kind s o s') e -> forall c, c ∈ created e -> c = cm_next s.
Proof. intros H c Hc. unfold created in Hc. apply elem_of_list_omap in Hc as (x & Hx & Hy). rewrite Forall_forall in H. apply H in Hx. destruct x; try done. injection Hy as <-. by destruct Hx. Qed.
Lemma created_in e c : c ∈ created e <-> ECreated c ∈ e.
Proof. unfold created. rewrite elem_of_list_omap. split; [intros (x & Hx & Hy); destruct x; try done; by injection Hy as <-|intros H; by exists (ECreated c)]. Qed.
Lemma step_made s o s' e : cinv s -> match o with OChild _ _ => False | _ => True end -> step s o = Ok (s', e) -> (length (created e) <= 1)%nat.
Proof.
  intros Hv Ho H. pose proof (ef_kind _ _ _ _ (step_eff hp policy sync _ _ _ _ Hv Ho H)) as Hk. pose proof (FamilyOnce.cstep_once hp policy sync (cm_next s) ltac:(pose proof (v_next _ Hv); lia) s o s' e Hv Ho H) as Hn.
  assert (Hle : (length (created e) <= FamilyOnce.evs (cm_next s) e)%nat).
  { clear Hn H. induction Hk as [|x l Hx _ IH]; [cbn; lia|]. change (created (x :: l)) with (created ([x] ++ l)). unfold created in *. rewrite omap_app, app_length.
    change (FamilyOnce.evs (cm_next s) (x :: l)) with (FamilyOnce.evn (cm_next s) x + FamilyOnce.evs (cm_next s) l)%nat.
    assert (Hy : (length (omap (fun x => match x with ECreated a => Some a | _ => None end) [x]) <= FamilyOnce.evn (cm_next s) x)%nat); [|lia].
    destruct x; cbn; try lia. destruct Hx as [-> _]. rewrite N.eqb_refl. lia. }
  assert (Hb : (FamilyOnce.born (cm_next s) e <= 1)%nat) by (unfold FamilyOnce.born; destruct (decide _); lia).
  destruct (match o with OOnCreate _ => true | _ => false end) eqn:Eo; [|destruct o; try done; cbn [FamilyOnce.opened] in Hn; lia].
  destruct o; try done. cbn in H. destruct (take_first _ _); [|injection H as _ <-; cbn; lia]. unfold on_create in H. destruct (cm_map _ !! _); [|done]. injection H as _ <-. cbn. lia.
Qed.
Lemma step_wonce c s o s' e ev : cinv s -> c <> 0 -> wonce c s ev -> step s o = Ok (s', e) -> wonce c s' (ev ++ e).
Proof.
  intros Hv Hc W H. destruct (match o with OChild _ _ => true | _ => false end) eqn:Ech.
  { destruct o; try done. cbn in H. assert (E : e = [] /\ cm_createq s' = cm_createq s /\ cm_initout s' = cm_initout s /\ cm_next s' = cm_next s).
    { destruct (cm_children s !! c0); [|by injection H as <- <-]. destruct (decide _); by injection H as <- <-. }
    destruct E as (-> & E1 & E2 & E3). rewrite app_nil_r. destruct W. by split; rewrite ?E1, ?E2, ?E3. }
  assert (Ho : match o with OChild _ _ => False | _ => True end) by (by destruct o).
  pose proof (step_eff hp policy sync _ _ _ _ Hv Ho H) as E. pose proof (step_made _ _ _ _ Hv Ho H) as Hm. pose proof (ef_kind _ _ _ _ E) as Hk. pose proof (created_one _ _ _ _ Hk) as Hone.
  assert (Hnx : cm_next s <= cm_next s') by (destruct (ef_next _ _ _ _ E) as [->|(cfg & _ & ->)]; lia).
  assert (Hmade : forall x, x ∈ created e -> x < cm_next s').
  { intros x Hx. pose proof (Hone _ Hx) as ->. destruct (ef_next _ _ _ _ E) as [->|(cfg & _ & ->)]; [|lia]. destruct (created e); [by apply elem_of_nil in Hx|]. cbn. lia. }
  assert (Hok : EInitOk c ∈ e -> o = OOnInit c false /\ c ∈ cm_initout s).
  { intros Hx. pose proof (TreeNode.ok_ops _ _ _ _ _ _ _ _ H Hx) as ->. split; [done|]. cbn in H. destruct (bool_decide (c ∈ cm_initout s)) eqn:Eb; [by apply bool_decide_eq_true_1 in Eb|]. injection H as _ <-. by apply elem_of_nil in Hx. }
  assert (Hreq : EInitReq c ∈ e -> o = OOnCreate c /\ c ∈ cm_createq s /\ exists q, take_first c (cm_createq s) = Some q /\ cm_createq s' = q).
  { intros Hx. rewrite Forall_forall in Hk. pose proof (Hk _ Hx) as Hy. cbn in Hy. subst o. split; [done|]. pose proof (ef_createq _ _ _ _ E) as Hq. cbn in Hq, H. destruct (take_first c (cm_createq s)) as [q|] eqn:Et.
    - destruct (Hq q eq_refl) as [Hq1 _]. split; [by apply take_first_in in Et as [? _]|]. by exists q.
    - injection H as _ <-. by apply elem_of_nil in Hx. }
  (* the queue *)
  assert (Hcq : NoDup (cm_createq s') /\ forall x, x ∈ cm_createq s' -> x ∈ cm_createq s \/ ECreated x ∈ e).
  { pose proof (ef_createq _ _ _ _ E) as Hq. assert (Happ : cm_createq s' = cm_createq s ++ created e -> NoDup (cm_createq s') /\ forall x, x ∈ cm_createq s' -> x ∈ cm_createq s \/ ECreated x ∈ e).
    { intros ->. split; [|intros x [?|Hx]%elem_of_app; [by left|right; by apply created_in]]. apply NoDup_app. split; [apply W|]. split.
      - intros x Hx Hx'. apply Hone in Hx' as ->. apply (wo_lt _ _ _ W) in Hx. lia.
      - destruct (created e) as [|x [|y l]]; [constructor|apply NoDup_singleton|cbn in Hm; lia]. }
    destruct o; try (by apply Happ). cbn in Hq, H. destruct (take_first a (cm_createq s)) as [q|] eqn:Et.
    - destruct (Hq q eq_refl) as [-> _]. destruct (take_first_in _ _ _ Et) as (_ & A & B). split; [apply B, W|]. intros x Hx. left. auto.
    - injection H as <- <-. split; [apply W|]. by left. }
  destruct Hcq as [Hd Hsub]. split.
  - done.
  - intros x Hx. apply Hsub in Hx as [Hx|Hx]; [apply (wo_lt _ _ _ W) in Hx; lia|]. by apply Hmade, created_in.
  - intros Hx0. destruct (Hsub _ Hx0) as [Hx|Hx].
    + destruct (wo_cq _ _ _ W Hx) as [A B]. split.
      * intros Hi. apply (ef_initout _ _ _ _ E) in Hi as [[? _]|Hi]; [done|]. destruct (Hreq Hi) as (_ & _ & q & Hq & Hq'). rewrite Hq' in Hx0. by destruct (take_first_in _ _ _ Hq) as (_ & _ & [_ ?]%(fun f => f (wo_dup _ _ _ W))).
      * intros [?|Hy]%elem_of_app; [done|]. by apply Hok in Hy as [_ ?].
    + apply created_in, Hone in Hx. subst c. split.
      * intros Hi. apply (ef_initout _ _ _ _ E) in Hi as [[Hi _]|Hi]; [apply (wo_io _ _ _ W) in Hi as [? _]; lia|]. apply Hreq in Hi as (_ & Hi & _). apply (wo_lt _ _ _ W) in Hi. lia.
      * intros [Hy|Hy]%elem_of_app; [apply (wo_ok _ _ _ W) in Hy; lia|]. apply Hok in Hy as [_ Hy]. apply (wo_io _ _ _ W) in Hy as [? _]. lia.
  - intros Hi. apply (ef_initout _ _ _ _ E) in Hi as [[Hi Hn]|Hi].
    + destruct (wo_io _ _ _ W Hi) as [A B]. split; [lia|]. intros [?|Hy]%elem_of_app; [done|]. apply Hok in Hy as [-> _]. by apply (Hn false).
    + destruct (Hreq Hi) as (-> & Hx & _). destruct (wo_cq _ _ _ W Hx) as [A B]. split; [apply (wo_lt _ _ _ W) in Hx; lia|]. intros [?|Hy]%elem_of_app; [done|]. by apply Hok in Hy as [? _].
  - intros [Hy|Hy]%elem_of_app; [apply (wo_ok _ _ _ W) in Hy; lia|]. apply Hok in Hy as [_ Hy]. apply (wo_io _ _ _ W) in Hy as [? _]. lia.
Qed.

Lemma starts_keys c (l : list (N * cinfo)) : NoDup l.*1 -> (starts c (omap (fun '(a, _) => if N.eqb a 0%N then None else Some (EStart a)) l) <= 1)%nat.
Proof.
  induction l as [|[a i] l IH]; intros H; [cbn; lia|]. inversion H as [|? ? Ha Hl]; subst. cbn [omap list_omap]. destruct (N.eqb_spec a 0); [by apply IH|].
  destruct (decide (a = c)) as [->|Hne].
  - change (starts c ([EStart c] ++ omap (fun '(a, _) => if N.eqb a 0%N then None else Some (EStart a)) l) <= 1)%nat. rewrite starts_app, (starts_none c (omap _ l)).
    + unfold starts. cbn. destruct (bool_decide _); cbn; lia.
    + intros Hx. apply elem_of_list_omap in Hx as ([b j] & Hb & Hy). destruct (b =? 0); [done|]. injection Hy as ->. apply Ha. apply elem_of_list_fmap. by exists (c, j).
  - change (starts c ([EStart a] ++ omap (fun '(a, _) => if N.eqb a 0%N then None else Some (EStart a)) l) <= 1)%nat. rewrite starts_app, (starts_none c [EStart a]); [by apply IH|].
    intros Hx. apply elem_of_list_singleton in Hx. congruence.
Qed.
Definition onest (c : N) (s : cstate) (ev : list cevent) : Prop := allinv False s ev /\ wonce c s ev /\ (starts c ev <= 1)%nat /\
  (EStart c ∈ ev -> if sync then past (cm_state s) else EInitOk c ∈ ev).
Lemma step_onest c s o s' e ev : c <> 0 -> onest c s ev -> step s o = Ok (s', e) -> onest c s' (ev ++ e).
Proof.
  intros Hc (Ha & W & Hn & Hp) H. split; [by eapply allinv_step|]. split; [eapply step_wonce; [apply Ha|done|done|done]|].
  destruct (decide (EStart c ∈ e)) as [Hin|Hin].
  - destruct (start_step _ _ _ _ _ _ _ _ H Hin) as [(-> & Hsy & Hst & _)|(-> & [?|Hsy])]; [|done|].
    + rewrite Hsy in Hp |- *. assert (Hno : EStart c ∉ ev) by (intros Hx; apply Hp in Hx; by rewrite Hst in Hx). cbn in H. rewrite Hst, bool_decide_true in H by done. unfold handle_start in H. rewrite Hsy in H.
      injection H as <- <-. split; [|done]. rewrite starts_app, (starts_none _ _ Hno). cbn [plus].
      change (starts c ([ESupStart] ++ omap (fun '(a, _) => if N.eqb a 0%N then None else Some (EStart a)) (map_to_list (cm_map s))) <= 1)%nat. rewrite starts_app, (starts_none c [ESupStart]); [|intros Hx; by apply elem_of_list_singleton in Hx].
      apply starts_keys, NoDup_fst_map_to_list.
    + rewrite Hsy in Hp |- *. cbn in H. destruct (bool_decide (c ∈ cm_initout s)) eqn:Eb; [|injection H as _ <-; by apply elem_of_nil in Hin]. apply bool_decide_eq_true_1 in Eb. destruct (wo_io _ _ _ W Eb) as [_ Hok].
      assert (Hno : EStart c ∉ ev) by auto. unfold on_init in H. cbn [negb andb] in H. set (x := set_initout _ _) in H. change (cm_map x) with (cm_map s) in H.
      assert (Hic : forall y, starts c (init_continue y) = 0%nat) by (intros y; apply starts_none; intros Hy; by apply TreeSteps.init_cont_in in Hy).
      destruct (cm_map s !! c) as [i|].
      * rewrite (proj2 (N.eqb_neq c 0) Hc), Hsy in H. cbn [negb] in H. injection H as _ <-. split; [|intros _; apply elem_of_app; right; left].
        rewrite starts_app, (starts_none _ _ Hno). cbn [plus]. set (l := if negb (has_initializing x) then _ else _). change (starts c ([EInitOk c; EStart c] ++ l) <= 1)%nat. rewrite starts_app. assert (Hz : forall b : bool, starts c (if b then init_continue (put_info x c (i_flags i true (ci_started i || true))) else []) = 0%nat) by (intros []; [apply Hic|done]).
        unfold l. rewrite Hz. change [EInitOk c; EStart c] with ([EInitOk c] ++ [EStart c]). rewrite starts_app, (starts_none c [EInitOk c]); [|intros Hx; by apply elem_of_list_singleton in Hx].
        unfold starts. cbn. destruct (bool_decide _); cbn; lia.
      * exfalso. injection H as _ <-. cbn in Hin. destruct (negb _) in Hin; [|by apply elem_of_nil in Hin]. by apply TreeSteps.init_cont_in in Hin.
  - rewrite starts_app, (starts_none _ _ Hin). split; [lia|]. intros [Hx|?]%elem_of_app; [|done]. apply Hp in Hx. destruct sync; [by eapply past_step|]. apply elem_of_app. by left.
Qed.
Lemma trig_once c ops s ev : c <> 0 -> run step (cinit hp) ops = Ok (s, ev) -> (starts c ev <= 1)%nat /\ (EStart c ∈ ev -> if sync then past (cm_state s) else EInitOk c ∈ ev).
Proof.
  intros Hc H. assert (Hi : onest c s ev); [|by destruct Hi as (_ & _ & ?)].
  refine (run_inv_ev step (fun _ _ => True) (onest c) _ ops (cinit hp) [] s ev _ _ H).
  - intros s0 ev0 o s1 e1 Ho _ Hs. by eapply step_onest.
  - split; [apply allinv_init|]. split; [|split; [cbn; lia|intros Hx; by apply elem_of_nil in Hx]]. split; cbn.
    + constructor.
    + intros x Hx. by apply elem_of_nil in Hx.
    + intros Hx. by apply elem_of_nil in Hx.
    + intros Hx. exfalso. assert (Hb : forall b : bool, c ∉ (if b then ∅ else {[0]} : gset N)) by (intros []; set_solver). by apply Hb in Hx.
    + intros Hx. by apply elem_of_nil in Hx.
  - clear H. generalize (cinit hp). induction ops as [|o ops IH]; intros x; cbn; [done|]. split; [done|]. destruct (step x o) as [[y z]| |]; try done.
Qed.
End once.
