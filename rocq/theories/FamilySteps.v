(** What one operation of the child manager does to the things the queues speak
    about. *)
From stdpp Require Import base list gmap.
From Verif Require Import Base ChildMgrModel ChildMgrSpec ChildMgrProofs ChildMgrTrace ChildMgrFacts.
Open Scope N_scope.

Section steps.
Context (hp : bool) (policy : spolicy) (sync : bool).
Notation step := (cstep hp policy sync).
Ltac gm := match goal with |- context [if ?b then _ else _] => destruct b end.

(** Events which matter to nobody outside. *)
Definition idle (x : cevent) : bool :=
  match x with
  | ECreated _ | EInitReq _ | EShutReq _ | EChildShutdown _ | ERemoved _ _ _ _ | EVoteShutdown _ | ESpawnMsg _ => false
  | _ => true
  end.
Notation idles := (Forall (fun x => idle x = true)).
Lemma idle_self s : idles (self_shutdown s).
Proof. unfold self_shutdown. gm; repeat constructor. Qed.
Lemma idle_ic s : idles (init_continue s).
Proof. unfold init_continue. gm; repeat constructor. Qed.
Lemma idle_oc s a : idles (on_child_shutdown s a).
Proof. unfold on_child_shutdown. gm; repeat constructor. Qed.

Record kept (s s' : cstate) : Prop := {
  kp_children : cm_children s' = cm_children s;
  kp_createq : cm_createq s' = cm_createq s;
  kp_shutout : cm_shutout s' = cm_shutout s;
  kp_unsub : cm_unsub s' = cm_unsub s;
  kp_state : cm_state s' = cm_state s;
  kp_next : cm_next s' = cm_next s
}.

Definition spawnmsgs (e : list cevent) : list N := omap (fun x => match x with ESpawnMsg a => Some a | _ => None end) e.
Lemma spawnmsgs_app l1 l2 : spawnmsgs (l1 ++ l2) = spawnmsgs l1 ++ spawnmsgs l2.
Proof. apply omap_app. Qed.
Lemma spawnmsgs_idle e : idles e -> spawnmsgs e = [].
Proof. induction 1 as [|x l Hx _ IH]; [done|]. cbn. destruct x; try done. Qed.

(** remove_child *)
Lemma cancel_kept s c : kept s (cancel_init s c) /\ cm_map (cancel_init s c) = cm_map s /\ cm_spawnq (cancel_init s c) = cm_spawnq s /\
  cm_initout (cancel_init s c) ⊆ cm_initout s /\
  (forall ch, cm_children s !! c = Some ch -> ch_initreq ch = true -> c ∉ cm_initout (cancel_init s c)) /\
  (forall x, x <> c -> x ∈ cm_initout s -> x ∈ cm_initout (cancel_init s c)).
Proof.
  unfold cancel_init. destruct (cm_children s !! c) as [ch|] eqn:Hc; [destruct (ch_initreq ch) eqn:Hi|]; cbn; split_and!; try done; try set_solver.
  intros ch' H. inversion H; subst. congruence.
Qed.

Lemma remove_eff s a ask s' e : remove_child policy s a ask = Ok (s', e) ->
  exists i c k abn e1 e2, cm_map s !! a = Some i /\ ci_actor i = Some c /\ e = e1 ++ ERemoved c k abn ask :: e2 /\ idles e1 /\
    Forall (fun x => idle x = true \/ x = ESpawnMsg a) e2 /\
    kept s s' /\ cm_spawnq s' = cm_spawnq s ++ spawnmsgs e /\ cm_initout s' ⊆ cm_initout s /\
    (forall ch, cm_children s !! c = Some ch -> ch_initreq ch = true -> c ∉ cm_initout s') /\
    (5 <= rank (cm_state s) -> cm_map s' !! a = None).
Proof.
  intros H. unfold remove_child in H. destruct (cm_map s !! a) as [i|] eqn:Hm; [|done].
  set (p1 := (if bool_decide (cm_state s = AInitializing) && negb (ci_started i) then
        if bool_decide (policy = PShutdownFailed) then (s, self_shutdown s)
        else if cm_initreq s then (set_initreq s false, [EInitError]) else (s, [])
      else (s, []))) in H.
  assert (H1 : (exists x, p1.1 = set_initreq s x) /\ idles p1.2).
  { assert (Hs : exists x, s = set_initreq s x) by (exists (cm_initreq s); by destruct s).
    unfold p1. repeat case_match; cbn; split; try done; try apply idle_self; try (by eexists); repeat constructor. }
  destruct p1 as [s1 e1]. cbn [fst snd] in H1. destruct H1 as [[x Hx] Hq].
  destruct (ci_actor i) as [c|] eqn:Ha; [|done].
  destruct (cancel_kept s1 c) as (K & Km & Kq & Ki & Kc & _).
  set (s2 := cancel_init s1 c) in *. subst s1. cbn in Kc, Ki, Kq, Km.
  assert (K2 : kept s s2). { destruct K. split; cbn in *; done. } clear K.
  match type of H with match ?p with _ => _ end = _ => set (p2 := p) in H end.
  assert (Hp2 : exists e3, p2.1.1.2 = e3 /\ Forall (fun x => idle x = true \/ x = ESpawnMsg a) e3 /\ kept s p2.1.1.1 /\
    cm_spawnq p2.1.1.1 = cm_spawnq s ++ spawnmsgs e3 /\ cm_initout p2.1.1.1 = cm_initout s2 /\
    (5 <= rank (cm_state s) -> p2.2 = true)).
  { exists p2.1.1.2. split; [done|]. unfold p2. destruct K2 as [Q1 Q2 Q3 Q4 Q5 Q6]. rewrite Q5.
    destruct ((rank (cm_state s) <=? 4) && bool_decide (is_Some (ci_sid i))) eqn:Hb.
    - apply andb_true_iff in Hb as [Hb _]. apply N.leb_le in Hb.
      destruct (next_spawn _ _ _ _) as [i' []]; cbn; (split_and!; [repeat (apply Forall_cons_2; [first [by right|by left]|]); apply Forall_nil_2|split; cbn; done|rewrite ?app_nil_r; congruence|done|intros; lia]).
    - cbn. split_and!; [apply Forall_nil_2|split; cbn; done|rewrite ?app_nil_r; congruence|done|done]. }
  destruct p2 as [[[s3 e3] i3] er]. cbn [fst snd] in Hp2. destruct Hp2 as (? & <- & Hp2 & K3 & Q3 & I3 & E3).
  inversion H; subst; clear H. destruct K3 as [P1 P2 P3 P4 P5 P6].
  set (s4 := if er then _ else _). assert (K4 : kept s s4 /\ cm_spawnq s4 = cm_spawnq s3 /\ cm_initout s4 = cm_initout s3).
  { unfold s4. destruct er; cbn; (split_and!; [split; cbn; done|done|done]). }
  destruct K4 as (K4 & Q4 & I4).
  eexists i, c, _, _, e1, _. split; [done|]. split; [done|]. split; [reflexivity|]. split; [done|].
  assert (Hi2 : idles (if bool_decide (cm_state s4 = AShuttingDown) && (active_actors s4 <=? 1)%nat then [EShutdownContinue] else [])) by (gm; repeat constructor).
  pose proof (idle_ic s4) as Hic.
  split_and!.
  - apply Forall_app. split; [done|]. apply Forall_app. split; (eapply Forall_impl; [done|]); auto.
  - done.
  - rewrite Q4, Q3, !spawnmsgs_app. cbn. rewrite !spawnmsgs_app. rewrite (spawnmsgs_idle e1) by done.
    rewrite (spawnmsgs_idle _ Hi2), (spawnmsgs_idle _ Hic). cbn. by rewrite !app_nil_r.
  - rewrite I4, I3. done.
  - intros ch H1 H2. rewrite I4, I3. by eapply Kc.
  - intros Hr. unfold s4. rewrite E3 by done. cbn. apply lookup_delete.
Qed.

(** What an event means, and by which operation it can be. *)
Definition kind (s : cstate) (o : cop) (s' : cstate) (x : cevent) : Prop :=
  match x with
  | ECreated c => c = cm_next s /\ (o = OCreate \/ exists a ok, o = OOnSpawn a ok)
  | EInitReq c => o = OOnCreate c
  | EChildShutdown c => o = OOnInit c true /\ c <> 0 /\ exists ch, cm_children s !! c = Some ch /\ rank (ch_state ch) < 5
  | EShutReq c => o = OTrigger c \/ 5 <= rank (cm_state s')
  | EVoteShutdown _ => o = OVoteShutdown
  | ERemoved c _ _ ask =>
      ((o = OConfirm c false ask /\ c ∈ cm_shutout s) \/ (o = OUnsubLast c ask /\ c ∈ cm_unsub s) \/ (c = 0 /\ o = ODeactivate true ask)) /\
      (forall ch, cm_children s !! c = Some ch -> ch_initreq ch = true -> c ∉ cm_initout s') /\
      (5 <= rank (cm_state s) -> cm_map s' !! c = None)
  | _ => True
  end.
Lemma idle_kind s o s' e : idles e -> Forall (kind s o s') e.
Proof. intros H. eapply Forall_impl; [exact H|]. intros x Hx. by destruct x. Qed.

Definition created (e : list cevent) : list N := omap (fun x => match x with ECreated a => Some a | _ => None end) e.
Lemma created_app l1 l2 : created (l1 ++ l2) = created l1 ++ created l2.
Proof. apply omap_app. Qed.
Lemma created_none e : (forall c, ECreated c ∉ e) -> created e = [].
Proof.
  induction e as [|x l IH]; [done|]. intros H. cbn. destruct x; try (apply IH; intros c' H'; apply (H c'); by right).
  exfalso. apply (H c). left.
Qed.

Record eff (s : cstate) (o : cop) (s' : cstate) (e : list cevent) : Prop := {
  ef_new : forall c, ECreated c ∈ e -> cm_children s' !! c = Some (Child AInitializing None false);
  ef_old : forall c, ECreated c ∉ e -> cm_children s' !! c = cm_children s !! c;
  ef_kind : Forall (kind s o s') e;
  ef_createq : match o with
               | OOnCreate c => forall q, take_first c (cm_createq s) = Some q -> cm_createq s' = q /\ e = [EInitReq c]
               | _ => cm_createq s' = cm_createq s ++ created e
               end;
  ef_spawnq : match o with
              | OOnSpawn a _ => forall q, take_first a (cm_spawnq s) = Some q -> cm_spawnq s' = q /\ spawnmsgs e = []
              | _ => cm_spawnq s' = cm_spawnq s ++ spawnmsgs e
              end;
  ef_initout : forall c, c ∈ cm_initout s' -> (c ∈ cm_initout s /\ (forall f, o <> OOnInit c f)) \/ EInitReq c ∈ e;
  ef_rank : 5 <= rank (cm_state s) -> 5 <= rank (cm_state s');
  ef_unsub : forall c, c ∈ cm_unsub s' <-> (c ∈ cm_unsub s /\ forall ask, o <> OUnsubLast c ask) \/
               (exists ask, o = OConfirm c true ask /\ c ∈ cm_shutout s);
  ef_shutout : forall c, c ∈ cm_shutout s' <-> (c ∈ cm_shutout s /\ forall subs ask, o <> OConfirm c subs ask) \/ EShutReq c ∈ e;
  ef_next : cm_next s' = cm_next s + N.of_nat (length (created e)) \/ exists cfg, o = OSpawn cfg /\ cm_next s' = cm_next s + 1
}.

Lemma eff_kept s o s' e : kept s s' -> cm_initout s' ⊆ cm_initout s -> cm_spawnq s' = cm_spawnq s ++ spawnmsgs e ->
  (forall c, ECreated c ∉ e) -> (forall c, EShutReq c ∉ e) ->
  match o with OOnCreate _ | OOnSpawn _ _ | OOnInit _ _ | OUnsubLast _ _ | OConfirm _ _ _ => False | _ => True end ->
  Forall (kind s o s') e -> eff s o s' e.
Proof.
  intros [K1 K2 K3 K4 K5 K6] Hi Hq Hc Hs Ho Hk. split.
  - intros c H. by apply Hc in H.
  - intros c _. by rewrite K1.
  - done.
  - rewrite (created_none e) by done. rewrite app_nil_r. by destruct o.
  - by destruct o.
  - intros c H. left. split; [by apply Hi|]. intros f ->. done.
  - by rewrite K5.
  - intros c. rewrite K4. split; [intros H; left; split; [done|]; intros ask ->; done|]. intros [[H _]|(ask & -> & _)]; done.
  - intros c. rewrite K3. split; [intros H; left; split; [done|]; intros subs ask ->; done|]. intros [[H _]|H]; [done|by apply Hs in H].
  - left. rewrite (created_none e) by done. cbn. rewrite K6. lia.
Qed.

Lemma idle_no e : idles e -> forall x, x ∈ e -> idle x = true.
Proof. intros H x Hx. rewrite Forall_forall in H. auto. Qed.
Lemma eff_idle s o s' e : kept s s' -> cm_initout s' ⊆ cm_initout s -> cm_spawnq s' = cm_spawnq s -> idles e ->
  match o with OOnCreate _ | OOnSpawn _ _ | OOnInit _ _ | OUnsubLast _ _ | OConfirm _ _ _ => False | _ => True end -> eff s o s' e.
Proof.
  intros K Hi Hq He Ho. apply eff_kept; try done.
  - by rewrite spawnmsgs_idle, app_nil_r.
  - intros c H. by apply (idle_no _ He) in H.
  - intros c H. by apply (idle_no _ He) in H.
  - by apply idle_kind.
Qed.

Lemma all_kept s : let s' := (request_shutdown_all s).1 in
  cm_children s' = cm_children s /\ cm_createq s' = cm_createq s /\ cm_spawnq s' = cm_spawnq s /\ cm_unsub s' = cm_unsub s /\
  cm_state s' = cm_state s /\ cm_next s' = cm_next s /\ cm_initout s' ⊆ cm_initout s /\
  (forall c, c ∈ cm_shutout s' <-> c ∈ cm_shutout s \/ EShutReq c ∈ (request_shutdown_all s).2) /\
  (forall x, x ∈ (request_shutdown_all s).2 -> x = EShutdownContinue \/ exists c, x = EShutReq c).
Proof.
  intros s'. 
  assert (Hi : forall l t, cm_initout (foldl cancel_init t l) ⊆ cm_initout t).
  { induction l as [|c l IH]; intros t; [done|]. cbn. etrans; [apply IH|]. apply cancel_kept. }
  split_and!; unfold s', request_shutdown_all; cbn.
  1-6: destruct (foldl_cancel (omap asked (map_to_list (cm_map s)).*2) s) as [y ->]; done.
  - apply Hi.
  - intros c. destruct (foldl_cancel (omap asked (map_to_list (cm_map s)).*2) s) as [y ->]. cbn.
    rewrite elem_of_union, elem_of_list_to_set. pose proof (ask_shutreqs s) as Hx. rewrite <-Hx, in_shutreqs. done.
  - intros x Hx. apply (ask_events_in s) in Hx as [(c & _ & _ & -> & _)| ->]; [right; by eexists|by left].
Qed.

Lemma no_spawnmsgs e : (forall a, ESpawnMsg a ∉ e) -> spawnmsgs e = [].
Proof.
  induction e as [|x l IH]; [done|]. intros H. cbn. destruct x; try (apply IH; intros c' H'; apply (H c'); by right).
  exfalso. apply (H a). left.
Qed.

Lemma remove_kind s a ask s' e (o : cop) e1 c k abn e2 : e = e1 ++ ERemoved c k abn ask :: e2 -> idles e1 ->
  Forall (fun x => idle x = true \/ x = ESpawnMsg a) e2 -> kind s o s' (ERemoved c k abn ask) ->
  Forall (kind s o s') e /\ (forall c, ECreated c ∉ e) /\ (forall c, EShutReq c ∉ e) /\ (forall c, EInitReq c ∉ e).
Proof.
  intros -> H1 H2 Hk.
  assert (H2' : forall x, x ∈ e2 -> match x with ECreated _ | EShutReq _ | EInitReq _ => False | _ => kind s o s' x end).
  { intros x Hx. rewrite Forall_forall in H2. apply H2 in Hx as [Hx| ->]; [by destruct x|done]. }
  split_and!.
  - apply Forall_app. split; [by apply idle_kind|]. constructor; [done|]. apply Forall_forall. intros x Hx. apply H2' in Hx. by destruct x.
  - intros x Hx. apply elem_of_app in Hx as [Hx|Hx]; [by apply (idle_no _ H1) in Hx|]. apply elem_of_cons in Hx as [?|Hx]; [done|]. by apply H2' in Hx.
  - intros x Hx. apply elem_of_app in Hx as [Hx|Hx]; [by apply (idle_no _ H1) in Hx|]. apply elem_of_cons in Hx as [?|Hx]; [done|]. by apply H2' in Hx.
  - intros x Hx. apply elem_of_app in Hx as [Hx|Hx]; [by apply (idle_no _ H1) in Hx|]. apply elem_of_cons in Hx as [?|Hx]; [done|]. by apply H2' in Hx.
Qed.

Lemma take_first_head a q : take_first a (a :: q) = Some q.
Proof. cbn. by rewrite N.eqb_refl. Qed.

Lemma all_no s : (forall c, ECreated c ∉ (request_shutdown_all s).2) /\ (forall c, ESpawnMsg c ∉ (request_shutdown_all s).2) /\
  (forall c, EInitReq c ∉ (request_shutdown_all s).2).
Proof.
  destruct (all_kept s) as (_ & _ & _ & _ & _ & _ & _ & _ & H). split_and!; intros c Hc; apply H in Hc as [?|[? ?]]; done.
Qed.

Ltac nop := split; cbn; first
  [ done
  | (* ef_new *) by intros c Hc; apply elem_of_nil in Hc
  | (* ef_kind *) by constructor
  | by rewrite app_nil_r
  | by intros; congruence
  | by intros c Hc; left
  | by intros c Hc; left; split; [done|]; intros f Hf; inversion Hf; subst; done
  | by intros c; split; [intros Hc; left; split; [done|]; intros; intros Hx; inversion Hx; subst; done|];
      intros [[? _]|(? & Hc & ?)]; [done|]; inversion Hc; subst; done
  | by intros c; split; [intros Hc; left; split; [done|]; intros; intros Hx; inversion Hx; subst; done|];
      intros [[? _]|Hc]; [done|]; apply elem_of_nil in Hc
  | left; lia ].
Lemma step_eff s o s' e : cinv s -> match o with OChild _ _ => False | _ => True end -> step s o = Ok (s', e) -> eff s o s' e.
Proof.
  intros Hv Ho H.
  assert (Hrefl : kept s s) by (by split).
  destruct o as [|cfg|a ok|a|a failed|a|a subs ask|a ask| | | |id|d| | |st|c ch|m ask]; try done;
    cbn -[create_child spawn on_spawn request_shutdown_all handle_shutdown] in H.
  - (* OCreate *)
    inversion H; subst; clear H. split; cbn.
    + intros c Hc. apply elem_of_list_singleton in Hc. inversion Hc; subst. by rewrite lookup_insert.
    + intros c Hc. rewrite lookup_insert_ne; [done|]. intros <-. apply Hc. left.
    + repeat constructor.
    + done.
    + by rewrite app_nil_r.
    + intros c Hc. left. done.
    + done.
    + intros c. split; [intros Hc; left; done|]. intros [[? _]|(? & ? & _)]; done.
    + intros c. split; [intros Hc; left; done|]. intros [[? _]|Hc]; [done|]. by apply elem_of_list_singleton in Hc.
    + by left.
  - (* OSpawn *)
    inversion H; subst; clear H. split; cbn.
    + intros c Hc. apply elem_of_cons in Hc as [?|Hc]; [done|]. by apply elem_of_list_singleton in Hc.
    + done.
    + repeat constructor.
    + by rewrite app_nil_r.
    + done.
    + intros c Hc. left. done.
    + done.
    + intros c. split; [intros Hc; left; done|]. intros [[? _]|(? & ? & _)]; done.
    + intros c. split; [intros Hc; left; done|]. intros [[? _]|Hc]; [done|]. apply elem_of_cons in Hc as [?|Hc]; [done|]. by apply elem_of_list_singleton in Hc.
    + right. by eexists.
  - (* OOnSpawn *)
    destruct (take_first a (cm_spawnq s)) as [q|] eqn:Hq; cycle 1.
    { inversion H; subst. nop. }
    assert (Hgen : forall s' e, idles e -> (exists x y z, s' = set_map (set_timing (set_initreq (set_spawnq s q) x) (cm_spawning y) (cm_timers y) (cm_tid y)) z) -> eff s (OOnSpawn a ok) s' e).
    { intros t l Hl (x & y & z & ->). split; cbn; try done.
      - intros c Hc. by apply (idle_no _ Hl) in Hc.
      - by apply idle_kind.
      - rewrite created_none, app_nil_r; [done|]. intros c Hc. by apply (idle_no _ Hl) in Hc.
      - intros q' Hq'. split; [congruence|]. by apply spawnmsgs_idle.
      - intros c Hc. by left.
      - intros c. split; [intros Hc; left; done|]. intros [[? _]|(? & ? & _)]; done.
      - intros c. split; [intros Hc; left; done|]. intros [[? _]|Hc]; [done|]. by apply (idle_no _ Hl) in Hc.
      - left. rewrite created_none; [cbn; lia|]. intros c Hc. by apply (idle_no _ Hl) in Hc. }
    unfold on_spawn in H. change (cm_map (set_spawnq s q) !! a) with (cm_map s !! a) in H. destruct (cm_map s !! a) as [i|] eqn:Hm; [|done].
    destruct (negb (ci_active i)). { inversion H; subst. apply Hgen; [constructor|]. exists (cm_initreq s), s, (cm_map s). by destruct s. }
    destruct (ok && bool_decide (is_Some (ci_sid i))) eqn:Hmade.
    { inversion H; subst; clear H. split; cbn.
      + intros c Hc. assert (c = cm_next s) as ->. { apply elem_of_cons in Hc as [?|Hc]; [done|]. apply elem_of_cons in Hc as [Hc|Hc]; [by inversion Hc|]. by apply elem_of_list_singleton in Hc. }
        by rewrite lookup_insert.
      + intros c Hc. rewrite lookup_insert_ne; [done|]. intros <-. apply Hc. right. left.
      + repeat (apply Forall_cons_2; [cbn; first [done | split; [done|]; right; eauto]|]). apply Forall_nil_2.
      + done.
      + intros q' Hq'. split; [congruence|done].
      + intros c Hc. left. done.
      + done.
      + intros c. split; [intros Hc; left; done|]. intros [[? _]|(? & ? & _)]; done.
      + intros c. split; [intros Hc; left; done|]. intros [[? _]|Hc]; [done|]. repeat (apply elem_of_cons in Hc as [?|Hc]; [done|]). by apply elem_of_nil in Hc.
      + by left. }
    match type of H with match ?p with _ => _ end = _ => set (p2 := p) in H end.
    assert (Hp2 : idles p2.1.2 /\ exists x, p2.1.1 = set_initreq (set_spawnq s q) x).
    { assert (Hs : exists x, set_spawnq s q = set_initreq (set_spawnq s q) x) by (exists (cm_initreq s); done).
      unfold p2. repeat gm; cbn; split; try done; try apply idle_self; try (by eexists); repeat constructor. }
    destruct p2 as [[s1 e1] t1]. cbn [fst snd] in Hp2. destruct Hp2 as [Hp2 [x ->]].
    destruct t1; cbn in H; inversion H; subst; clear H.
    + apply Hgen; [constructor; [done|]; apply Forall_app; split; [done|repeat constructor]|].
      exists x, (start_timer s a (sc_period (ci_cfg i))).1. by eexists.
    + apply Hgen; [constructor; done|]. exists x, s. by eexists.
  - (* OOnCreate *)
    destruct (take_first a (cm_createq s)) as [q|] eqn:Hq; cycle 1.
    { inversion H; subst. nop. }
    unfold on_create in H. destruct (cm_map (set_createq s q) !! a) as [i|]; [|done]. inversion H; subst; clear H. split; cbn; try done.
    + intros c Hc. by apply elem_of_list_singleton in Hc.
    + repeat constructor.
    + intros q' Hq'. split; [congruence|done].
    + by rewrite app_nil_r.
    + intros c Hc. apply elem_of_union in Hc as [Hc|Hc]; [by left|]. apply elem_of_singleton in Hc as ->. right. left.
    + intros c. split; [intros Hc; left; done|]. intros [[? _]|(? & ? & _)]; done.
    + intros c. split; [intros Hc; left; done|]. intros [[? _]|Hc]; [done|]. by apply elem_of_list_singleton in Hc.
    + left. lia.
  - (* OOnInit *)
    case_bool_decide as Hin; cycle 1.
    { inversion H; subst. nop. }
    assert (Hgen : forall s' e, Forall (fun x => idle x = true \/ x = EChildShutdown a /\ kind s (OOnInit a failed) s' x) e ->
      kept s s' -> cm_initout s' = cm_initout s ∖ {[a]} -> cm_spawnq s' = cm_spawnq s -> eff s (OOnInit a failed) s' e).
    { intros t l Hl [K1 K2 K3 K4 K5 K6] Hi Hq. rewrite Forall_forall in Hl.
      assert (Hno : forall x, x ∈ l -> match x with ECreated _ | EShutReq _ | ESpawnMsg _ => False | _ => True end).
      { intros x Hx. apply Hl in Hx as [Hx|[-> _]]; [by destruct x|done]. }
      split; cbn; try congruence.
      - intros c Hc. by apply Hno in Hc.
      - apply Forall_forall. intros x Hx. apply Hl in Hx as [Hx|[_ Hx]]; [by destruct x|done].
      - rewrite created_none, app_nil_r; [done|]. intros c Hc. by apply Hno in Hc.
      - rewrite no_spawnmsgs, app_nil_r; [done|]. intros c Hc. by apply Hno in Hc.
      - intros c Hc. rewrite Hi in Hc. apply elem_of_difference in Hc as [Hc Hne]. left. split; [done|]. intros f Hf. inversion Hf; subst. set_solver.
      - intros c. rewrite K4. split; [intros Hc; left; done|]. intros [[? _]|(? & ? & _)]; done.
      - intros c. rewrite K3. split; [intros Hc; left; done|]. intros [[? _]|Hc]; [done|]. by apply Hno in Hc.
      - left. rewrite created_none; [cbn; lia|]. intros c Hc. by apply Hno in Hc. }
    assert (Hid : forall s' e, idles e -> kept s s' -> cm_initout s' = cm_initout s ∖ {[a]} -> cm_spawnq s' = cm_spawnq s -> eff s (OOnInit a failed) s' e).
    { intros t l Hl. apply Hgen. eapply Forall_impl; [exact Hl|]. by left. }
    unfold on_init in H. set (s1 := set_initout s _) in H.
    assert (K1 : kept s s1) by (by split). assert (KI : cm_initout s1 = cm_initout s ∖ {[a]}) by done. assert (KQ : cm_spawnq s1 = cm_spawnq s) by done.
    destruct failed; cbn [negb andb] in H.
    + destruct (bool_decide (cm_state s1 = AInitializing) && bool_decide (policy = PShutdownSelf)).
      * destruct (cm_initreq s1); [|inversion H; subst; apply Hid; [apply idle_self|done..]].
        destruct (a =? 0); inversion H; subst; (apply Hid; [try apply idle_self; repeat constructor|try done; by split|done..]).
      * destruct (cm_map s1 !! a) as [i|] eqn:Hm; [|inversion H; subst; apply Hid; [apply idle_self|done..]].
        destruct (ci_actor i) as [c|] eqn:Ha; [|done]. inversion H; subst; clear H. destruct (N.eqb_spec c 0) as [->|Hc0]; [apply Hid; [apply idle_self|done..]|].
        apply Hgen; [|done..]. assert (c = a) as -> by (by eapply v_key). unfold child_shutdown. change (cm_children s1) with (cm_children s).
        destruct (cm_children s !! a) as [ch|] eqn:Hch; [|constructor]. destruct (N.ltb_spec (rank (ch_state ch)) 5); [|constructor].
        constructor; [|constructor]. right. split; [done|]. cbn. split_and!; try done. by exists ch.
    + set (X := if _ : bool then init_continue _ else []) in H || idtac.
      destruct (cm_map s1 !! a) as [i|]; inversion H; subst; clear H.
      * apply Hid; [|by split|done|done]. constructor; [done|]. apply Forall_app. split; [repeat gm; repeat constructor|]. gm; [apply idle_ic|constructor].
      * apply Hid; [|done..]. gm; [apply idle_ic|constructor].
  - (* OTrigger *)
    unfold on_shutdown_trigger in H. destruct (cm_map s !! a) as [i|] eqn:Hm; [|done].
    unfold request_shutdown in H. destruct (ci_shut i) eqn:Hsh; [|inversion H; subst; apply eff_idle; first [done|by constructor]..].
    destruct (ci_actor i) as [x|] eqn:Ha; [|done]. assert (x = a) as -> by (by eapply v_key).
    destruct (cancel_kept s a) as (K & Km & Kq & Ki & Kc & Kx). destruct K as [K1 K2 K3 K4 K5 K6].
    destruct (N.eqb_spec a 0) as [->|Ha0].
    + destruct hp.
      { inversion H; subst. apply eff_idle; cbn; first [done|by split|apply idle_self]. }
      case_bool_decide as Hst.
      { inversion H; subst. apply eff_idle; cbn; first [done|by split|by constructor]. }
      match type of H with context [request_shutdown_all ?x] => pose proof (all_kept x) as HA; pose proof (all_no x) as HN; destruct (request_shutdown_all x) as [s3 e3] end.
      cbn in HA, HN. destruct HA as (A1 & A2 & A3 & A4 & A5 & A6 & A7 & A8 & A9). destruct HN as (N1 & N2 & N3).
      inversion H; subst; clear H.
      assert (Hev : forall x, x ∈ EShutdownStart :: e3 ++ [EShutdownContinue] -> x = EShutdownStart \/ x = EShutdownContinue \/ x ∈ e3).
      { intros x Hx. apply elem_of_cons in Hx as [->|Hx]; [by left|]. apply elem_of_app in Hx as [Hx|Hx]; [by right; right|]. apply elem_of_list_singleton in Hx as ->. by right; left. }
      split; cbn.
      * intros c Hc. apply Hev in Hc as [?|[?|Hc]]; try done. by apply N1 in Hc.
      * intros c _. by rewrite A1, K1.
      * apply Forall_forall. intros x Hx. apply Hev in Hx as [->|[->|Hx]]; try done. apply A9 in Hx as [->|[c ->]]; [done|]. cbn. right. by rewrite A5.
      * rewrite omap_app. cbn. pose proof (created_none e3 N1) as Hn. unfold created in Hn. rewrite Hn, !app_nil_r. congruence.
      * rewrite omap_app. cbn. pose proof (no_spawnmsgs e3 N2) as Hn. unfold spawnmsgs in Hn. rewrite Hn, !app_nil_r. congruence.
      * intros c Hc. left. split; [|done]. apply Ki. by apply A7.
      * intros _. by rewrite A5.
      * intros c. rewrite A4, K4. split; [intros Hc; left; done|]. intros [[? _]|(? & ? & _)]; done.
      * intros c. rewrite A8, K3. split.
        -- intros [Hc|Hc]; [left; done|]. right. right. apply elem_of_app. by left.
        -- intros [[Hc _]|Hc]; [by left|]. apply Hev in Hc as [?|[?|Hc]]; try done. by right.
      * left. rewrite omap_app. cbn. pose proof (created_none e3 N1) as Hn. unfold created in Hn. rewrite Hn. cbn. rewrite A6, K6. lia.
    + inversion H; subst; clear H. split; cbn.
      * intros c Hc. by apply elem_of_list_singleton in Hc.
      * intros c _. by rewrite K1.
      * repeat constructor.
      * by rewrite app_nil_r.
      * by rewrite app_nil_r.
      * intros c Hc. left. split; [by apply Ki|done].
      * by rewrite K5.
      * intros c. rewrite K4. split; [intros Hc; left; done|]. intros [[? _]|(? & ? & _)]; done.
      * intros c. rewrite K3, elem_of_union, elem_of_singleton. split.
        -- intros [Hc| ->]; [left; done|right; left].
        -- intros [[Hc _]|Hc]; [by left|]. apply elem_of_list_singleton in Hc. inversion Hc. by right.
      * left. rewrite K6. lia.
  - (* OConfirm *)
    case_bool_decide as Hin; cycle 1.
    { inversion H; subst. nop. }
    unfold on_shutdown_confirm in H. set (s1 := set_shutout s _) in H. destruct (cm_map s1 !! a) as [i|] eqn:Hm; [|done].
    change (cm_map s1) with (cm_map s) in Hm.
    destruct (ci_actor i) as [x|] eqn:Ha; [|done]. assert (x = a) as -> by (by eapply v_key).
    destruct subs.
    + inversion H; subst; clear H. assert (Hid := idle_oc (put_info s1 a (i_shut i SConfirmed)) a).
      split; cbn.
      * intros c Hc. by apply (idle_no _ Hid) in Hc.
      * done.
      * by apply idle_kind.
      * rewrite created_none, app_nil_r; [done|]. intros c Hc. by apply (idle_no _ Hid) in Hc.
      * rewrite spawnmsgs_idle, app_nil_r; done.
      * intros c Hc. by left.
      * done.
      * intros c. rewrite elem_of_union, elem_of_singleton. split; [intros [Hc| ->]; [left; done|right; by exists ask]|].
        intros [[? _]|(? & Hc & ?)]; [by left|]. inversion Hc; subst. by right.
      * intros c. rewrite elem_of_difference, elem_of_singleton. split.
        -- intros [H1 H2]. left. split; [done|]. intros ? ? Hx. inversion Hx; subst. done.
        -- intros [[H1 H2]|Hc]; [split; [done|]; intros ->; by eapply H2|]. by apply (idle_no _ Hid) in Hc.
      * left. rewrite created_none; [cbn; lia|]. intros c Hc. by apply (idle_no _ Hid) in Hc.
    + destruct (remove_child _ _ _ _) as [[s2 e2]| |] eqn:Er; cbn in H; [|done..]. inversion H; subst; clear H.
      assert (Hid := idle_oc s' a).
      apply remove_eff in Er as (i2 & c & k & abn & e1 & e3 & Hm2 & Ha2 & -> & He1 & He3 & [K1 K2 K3 K4 K5 K6] & Kq & Ki & Kc & Km).
      cbn in Hm2, K1, K2, K3, K4, K5, K6, Kq, Ki, Kc, Km. rewrite lookup_insert in Hm2. inversion Hm2; subst. cbn in Ha2.
      assert (c = a) as -> by congruence.
      assert (Hk : kind s (OConfirm a false ask) s' (ERemoved a k abn ask)). { cbn. split; [left; done|]. split; [done|]. done. }
      destruct (remove_kind s a ask s' _ (OConfirm a false ask) e1 a k abn e3 eq_refl He1 He3 Hk) as (R1 & R2 & R3 & R4).
      set (e0 := e1 ++ ERemoved a k abn ask :: e3) in *.
      assert (Hin' : forall x, x ∈ e0 ++ on_child_shutdown s' a -> x ∈ e0 \/ idle x = true).
      { intros x Hx. apply elem_of_app in Hx as [Hx|Hx]; [by left|]. right. by apply (idle_no _ Hid). }
      split.
      * intros x Hx. apply Hin' in Hx as [Hx|Hx]; [by apply R2 in Hx|done].
      * intros x _. by rewrite K1.
      * apply Forall_app. split; [done|]. by apply idle_kind.
      * cbn. rewrite created_none, app_nil_r; [done|]. intros x Hx. apply Hin' in Hx as [Hx|Hx]; [by apply R2 in Hx|done].
      * cbn. rewrite spawnmsgs_app, (spawnmsgs_idle _ Hid), app_nil_r. done.
      * intros x Hx. left. split; [by apply Ki|done].
      * by rewrite K5.
      * intros x. rewrite K4. split; [intros Hc; left; done|]. intros [[? _]|(? & Hc & ?)]; done.
      * intros x. rewrite K3, elem_of_difference, elem_of_singleton. split.
        -- intros [H1 H2]. left. split; [done|]. intros ? ? Hx. inversion Hx; subst. done.
        -- intros [[H1 H2]|Hc]; [split; [done|]; intros ->; by eapply H2|]. apply Hin' in Hc as [Hc|Hc]; [by apply R3 in Hc|done].
      * left. rewrite created_none; [cbn; rewrite K6; lia|]. intros x Hx. apply Hin' in Hx as [Hx|Hx]; [by apply R2 in Hx|done].
  - (* OUnsubLast *)
    case_bool_decide as Hin; cycle 1.
    { inversion H; subst. nop. }
    apply remove_eff in H as (i2 & c & k & abn & e1 & e3 & Hm2 & Ha2 & -> & He1 & He3 & [K1 K2 K3 K4 K5 K6] & Kq & Ki & Kc & Km).
    cbn in Hm2, K1, K2, K3, K4, K5, K6, Kq, Ki, Kc, Km. assert (c = a) as -> by (by eapply v_key).
    assert (Hk : kind s (OUnsubLast a ask) s' (ERemoved a k abn ask)). { cbn. split; [right; left; done|]. split; [done|]. done. }
    destruct (remove_kind s a ask s' _ (OUnsubLast a ask) e1 a k abn e3 eq_refl He1 He3 Hk) as (R1 & R2 & R3 & R4).
    set (e0 := e1 ++ ERemoved a k abn ask :: e3) in *.
    split.
    + intros x Hx. by apply R2 in Hx.
    + intros x _. by rewrite K1.
    + done.
    + cbn. rewrite created_none, app_nil_r; done.
    + cbn. done.
    + intros x Hx. left. split; [by apply Ki|done].
    + by rewrite K5.
    + intros x. rewrite K4, elem_of_difference, elem_of_singleton. split.
      * intros [H1 H2]. left. split; [done|]. intros ? Hx. inversion Hx; subst. done.
      * intros [[H1 H2]|(? & Hc & ?)]; [split; [done|]; intros ->; by eapply H2|done].
    + intros x. rewrite K3. split; [intros Hc; left; done|]. intros [[? _]|Hc]; [done|]. by apply R3 in Hc.
    + left. rewrite created_none; [cbn; rewrite K6; lia|done].
  - inversion H; subst. apply eff_idle; try done. repeat constructor.
  - (* OVoteShutdown *)
    case_bool_decide as Hst; [|inversion H; subst; apply eff_idle; first [done|by constructor]].
    unfold handle_shutdown in H. destruct (cm_map s !! 0) as [i|] eqn:Hm; [|done].
    match type of H with context [request_shutdown_all ?x] => pose proof (all_kept x) as HA; pose proof (all_no x) as HN; destruct (request_shutdown_all x) as [s3 e3] end.
    cbn in HA, HN. destruct HA as (A1 & A2 & A3 & A4 & A5 & A6 & A7 & A8 & A9). destruct HN as (N1 & N2 & N3).
    inversion H; subst; clear H. set (b := (active_actors s' =? 1)%nat).
    assert (Hev : forall x, x ∈ e3 ++ [EVoteShutdown b] -> x = EVoteShutdown b \/ x ∈ e3).
    { intros x Hx. apply elem_of_app in Hx as [Hx|Hx]; [by right|]. apply elem_of_list_singleton in Hx as ->. by left. }
    split; cbn.
    + intros c Hc. apply Hev in Hc as [?|Hc]; try done. by apply N1 in Hc.
    + intros c _. by rewrite A1.
    + apply Forall_forall. intros x Hx. apply Hev in Hx as [->|Hx]; try done. apply A9 in Hx as [->|[c ->]]; [done|]. cbn. right. by rewrite A5, Hst.
    + rewrite created_app. cbn. rewrite (created_none e3 N1), !app_nil_r. congruence.
    + rewrite spawnmsgs_app. cbn. rewrite (no_spawnmsgs e3 N2), !app_nil_r. congruence.
    + intros c Hc. left. split; [|done]. by apply A7.
    + intros _. by rewrite A5, Hst.
    + intros c. rewrite A4. split; [intros Hc; left; done|]. intros [[? _]|(? & ? & _)]; done.
    + intros c. rewrite A8. split.
      * intros [Hc|Hc]; [left; done|]. right. apply elem_of_app. by left.
      * intros [[Hc _]|Hc]; [by left|]. apply Hev in Hc as [?|Hc]; try done. by right.
    + left. rewrite created_app, (created_none e3 N1). cbn. rewrite A6. lia.
  - (* OHandleStart *)
    case_bool_decide as Hst; [|inversion H; subst; apply eff_idle; first [done|by constructor]].
    assert (Hgen : forall t e, kept s t -> cm_initout t = cm_initout s -> cm_spawnq t = cm_spawnq s -> idles e -> eff s OHandleStart (set_state t AOperational) e).
    { intros t l [K1 K2 K3 K4 K5 K6] Hi Hq Hl. split; cbn; try done.
      - intros c Hc. by apply (idle_no _ Hl) in Hc.
      - intros c _. by rewrite K1.
      - by apply idle_kind.
      - rewrite created_none, app_nil_r; [done|]. intros c Hc. by apply (idle_no _ Hl) in Hc.
      - rewrite spawnmsgs_idle, app_nil_r; done.
      - intros c Hc. left. by rewrite Hi in Hc.
      - rewrite Hst. cbn. lia.
      - intros c. rewrite K4. split; [intros Hc; left; done|]. intros [[? _]|(? & ? & _)]; done.
      - intros c. rewrite K3. split; [intros Hc; left; done|]. intros [[? _]|Hc]; [done|]. by apply (idle_no _ Hl) in Hc.
      - left. rewrite created_none; [cbn; lia|]. intros c Hc. by apply (idle_no _ Hl) in Hc. }
    unfold handle_start in H. destruct sync; inversion H; subst; clear H.
    + apply Hgen; [by split|done|done|]. constructor; [done|]. apply Forall_forall. intros x Hx.
      apply elem_of_list_omap in Hx as ([y j] & _ & Hx). destruct (y =? 0); inversion Hx. done.
    + apply Hgen; [by split|done|done|repeat constructor].
  - (* OFire *)
    destruct (cm_timers s !! id) as [d|]; [|inversion H; subst; apply eff_idle; first [done|by constructor]].
    destruct (d <=? cm_now s); [|inversion H; subst; apply eff_idle; first [done|by constructor]].
    unfold on_spawn_timer in H. destruct (cm_spawning s !! id) as [key|]; [|done]. destruct (cm_map _ !! key) as [i|]; [|done].
    cbn in H. destruct (rank (cm_state s) <=? 4); inversion H; subst; clear H.
    + apply eff_kept; cbn; first [done|by split|by intros c Hc; apply elem_of_list_singleton in Hc|by repeat constructor].
    + apply eff_idle; cbn; first [done|by split|by constructor].
  - inversion H; subst. apply eff_idle; cbn; first [done|by split|by constructor].
  - inversion H; subst. apply eff_idle; cbn; first [done|by split|by constructor].
  - inversion H; subst. case_bool_decide; apply eff_idle; cbn; first [done|by split|by constructor].
  - (* OState *)
    destruct (sup_moves hp (cm_state s) st) eqn:Hsm; inversion H; subst; clear H; [|apply eff_idle; first [done|by constructor]].
    split; cbn; try done.
    + intros c Hc. by apply elem_of_nil in Hc.
    + by rewrite app_nil_r.
    + by rewrite app_nil_r.
    + intros c Hc. by left.
    + destruct (cm_state s), st; cbn in *; try done; lia.
    + intros c. split; [intros Hc; left; done|]. intros [[? _]|(? & ? & _)]; done.
    + intros c. split; [intros Hc; left; done|]. intros [[? _]|Hc]; [done|]. by apply elem_of_nil in Hc.
    + left. lia.
  - (* ODeactivate *)
    case_bool_decide as Hst; [|inversion H; subst; apply eff_idle; first [done|by constructor]].
    unfold deactivate in H. destruct m; cbn [andb] in H; [|inversion H; subst; apply eff_idle; first [done|by constructor]].
    destruct (active_actors s =? 1)%nat; [|inversion H; subst; apply eff_idle; first [done|by constructor]].
    apply remove_eff in H as (i2 & c & k & abn & e1 & e3 & Hm2 & Ha2 & -> & He1 & He3 & K & Kq & Ki & Kc & Km).
    assert (c = 0) as -> by (by eapply v_key).
    assert (Hk : kind s (ODeactivate true ask) s' (ERemoved 0 k abn ask)). { cbn. split; [right; right; done|]. split; [done|]. done. }
    destruct (remove_kind s 0 ask s' _ (ODeactivate true ask) e1 0 k abn e3 eq_refl He1 He3 Hk) as (R1 & R2 & R3 & R4).
    apply eff_kept; done.
Qed.
End steps.
