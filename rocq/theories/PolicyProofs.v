(** C76: what the policy of a supervisor does while it initializes. *)
From stdpp Require Import base list gmap.
From Verif Require Import Base ChildMgrModel ChildMgrSpec ChildMgrProofs ChildMgrTrace ChildMgrFacts TreeSteps PolicySpec.
Open Scope N_scope.

Section policy.
Context (hp : bool) (policy : spolicy) (sync : bool).
Notation step := (cstep hp policy sync).

Lemma quiet_app e1 e2 : quiet e1 -> quiet e2 -> quiet (e1 ++ e2).
Proof. intros [H1 H2] [H3 H4]. split; rewrite elem_of_app; tauto. Qed.
Lemma quiet_cons x e : x <> EInitError -> x <> ESelfShutdown -> quiet e -> quiet (x :: e).
Proof. intros H1 H2 [H3 H4]. split; rewrite elem_of_cons; intros [?|?]; congruence. Qed.
Lemma quiet_nil : quiet [].
Proof. split; apply not_elem_of_nil. Qed.
Lemma quiet_cont s : quiet (init_continue s).
Proof. split; intros H; by apply init_cont_in in H. Qed.
Lemma quiet_ocs s a : quiet (on_child_shutdown s a).
Proof. unfold on_child_shutdown. destruct (_ && _); [apply quiet_cons; try done; apply quiet_nil|apply quiet_nil]. Qed.

Lemma cancel_req s c : cm_initreq (cancel_init s c) = cm_initreq s.
Proof. unfold cancel_init. destruct (cm_children s !! c) as [ch|]; [|done]. by destruct (ch_initreq ch). Qed.

Notation reacts := (reacts policy).
Lemma remove_reacts s a ask s' e i : cm_state s = AInitializing -> cm_map s !! a = Some i -> remove_child policy s a ask = Ok (s', e) -> reacts s s' i e.
Proof.
  intros Hs Hi H. unfold remove_child in H. rewrite Hi in H. rewrite bool_decide_true in H by done. cbn [andb] in H.
  set (p1 := if negb (ci_started i) then _ else _) in H.
  assert (Hp : (if ci_started i then p1 = (s, []) else match policy with PShutdownFailed => p1 = (s, [ESelfShutdown]) |
    PShutdownSelf => p1 = if cm_initreq s then (set_initreq s false, [EInitError]) else (s, []) end)).
  { unfold p1, self_shutdown. rewrite Hs. destruct (ci_started i); [done|]. by destruct policy. }
  assert (Hq : cm_initreq p1.1 = if ci_started i then cm_initreq s else match policy with PShutdownFailed => cm_initreq s | PShutdownSelf => false end).
  { destruct (ci_started i); [by rewrite Hp|]. destruct policy; rewrite Hp; try done. by destruct (cm_initreq s) eqn:?. }
  destruct p1 as [s1 e1] eqn:E1. destruct (ci_actor i) as [c|]; [|done]. cbn [fst] in Hq.
  match type of H with match ?p with _ => _ end = _ => set (p2 := p) in H end.
  assert (Hp2 : quiet p2.1.1.2 /\ cm_initreq p2.1.1.1 = cm_initreq s1).
  { unfold p2. destruct (_ && _); [|split; [apply quiet_nil|apply cancel_req]]. destruct (next_spawn _ _ _ _) as [? []]; cbn; (split; [|apply cancel_req]); try apply quiet_nil; (apply quiet_cons; try done; apply quiet_nil). }
  destruct p2 as [[[s3 e3] i3] er]. cbn [fst snd] in Hp2. destruct Hp2 as [Hq3 Hr3].
  set (s4 := if er then _ else _) in H. assert (H4 : cm_initreq s4 = cm_initreq s3) by (unfold s4; by destruct er).
  injection H as <- <-.
  match goal with |- PolicySpec.reacts _ _ _ _ (_ ++ _ :: ?r) => assert (Hr : quiet r) end.
  { apply quiet_app; [done|]. apply quiet_app; [|apply quiet_cont]. destruct (_ && _); [apply quiet_cons; try done|]; apply quiet_nil. }
  unfold PolicySpec.reacts. destruct (ci_started i).
  - injection Hp as -> ->. by apply quiet_cons.
  - destruct policy.
    + destruct (cm_initreq s) eqn:Hini; injection Hp as -> ->; [|by apply quiet_cons]. split; [by left|]. rewrite H4, Hr3. done.
    + injection Hp as -> ->. by left.
Qed.
Lemma step_reacts s o s' e c k abn ask i : cinv s -> cm_state s = AInitializing -> step s o = Ok (s', e) -> ERemoved c k abn ask ∈ e -> cm_map s !! c = Some i -> reacts s s' i e.
Proof.
  intros Hv Hs H He Hi. destruct (removed_step _ _ _ _ _ _ _ _ _ _ _ H He) as [(a & -> & Ha)|[(a & -> & Ha)|[_ ?]]]; [| |congruence]; cbn in H; rewrite bool_decide_true in H by done.
  - unfold on_shutdown_confirm in H. set (s0 := set_shutout s _) in H. change (cm_map s0 !! a) with (cm_map s !! a) in H. destruct (cm_map s !! a) as [j|] eqn:Hj; [|done].
    set (s1 := put_info s0 a (i_shut j SConfirmed)) in H. destruct (ci_actor j) as [d|] eqn:Hd; [|done]. pose proof (v_key _ Hv a j d Hj Hd) as ->.
    destruct (remove_child policy s1 a ask) as [[s2 e2]| |] eqn:Er; try done. cbn in H. injection H as <- <-.
    assert (Hl : cm_map s1 !! a = Some (i_shut j SConfirmed)) by (unfold s1, put_info; cbn; by rewrite lookup_insert).
    assert (Hc : c = a). { apply elem_of_app in He as [He|He]; [|by unfold on_child_shutdown in He; destruct (_ && _); [apply elem_of_list_singleton in He|apply elem_of_nil in He]].
      destruct (remove_event _ _ _ _ _ _ _ _ _ _ Er He) as (i' & Hi' & _ & Hx & _). rewrite Hl in Hi'. injection Hi' as <-. cbn in Hx. congruence. }
    subst c. rewrite Hj in Hi. injection Hi as ->. pose proof (remove_reacts s1 a ask s2 e2 _ Hs Hl Er) as R. unfold PolicySpec.reacts in *. cbn [ci_started i_shut] in R.
    change (cm_initreq s1) with (cm_initreq s) in R. pose proof (quiet_ocs s2 a) as Hq. destruct (ci_started i); [by apply quiet_app|]. destruct policy; [|apply elem_of_app; by left].
    destruct (cm_initreq s); [|by apply quiet_app]. split; [|apply R]. apply elem_of_app. left. apply R.
  - set (s0 := set_unsub s _) in H. assert (Hc : c = a).
    { destruct (remove_event _ _ _ _ _ _ _ _ _ _ H He) as (i' & Hi' & _ & Hx & _). by eapply (v_key _ Hv a i' c). }
    subst c. exact (remove_reacts s0 a ask s' e i Hs Hi H).
Qed.
(** The answer of a child which failed. *)
Lemma init_reacts s c s' e : cm_state s = AInitializing -> c <> 0 -> c ∈ cm_initout s -> step s (OOnInit c true) = Ok (s', e) ->
  match policy with
  | PShutdownSelf => if cm_initreq s then e = [EInitError] /\ cm_initreq s' = false else e = [ESelfShutdown]
  | PShutdownFailed => match cm_map s !! c with Some i => forall d, ci_actor i = Some d -> d <> 0 -> quiet e | None => e = [ESelfShutdown] end
  end.
Proof.
  intros Hs Hc Ho H. cbn in H. rewrite bool_decide_true in H by done. unfold on_init in H. change (cm_state (set_initout s _)) with (cm_state s) in H. rewrite (bool_decide_true (cm_state s = _)) in H by done.
  cbn [andb] in H. change (cm_initreq (set_initout s _)) with (cm_initreq s) in H. change (cm_map (set_initout s _)) with (cm_map s) in H. unfold self_shutdown in H. cbn [cm_state set_initout] in H. rewrite Hs in H.
  destruct policy.
  - rewrite bool_decide_true in H by done. destruct (cm_initreq s); [|by injection H as <- <-]. apply N.eqb_neq in Hc. rewrite Hc in H. by injection H as <- <-.
  - rewrite bool_decide_false in H by done. destruct (cm_map s !! c) as [i|]; [|by injection H as <- <-]. intros d Hd Hd0. rewrite Hd in H. apply N.eqb_neq in Hd0. rewrite Hd0 in H. injection H as <- <-.
    unfold child_shutdown. destruct (cm_children _ !! d); [|apply quiet_nil]. destruct (_ <? _); [|apply quiet_nil]. apply quiet_cons; try done; apply quiet_nil.
Qed.
End policy.
