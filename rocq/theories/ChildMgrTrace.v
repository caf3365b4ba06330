(** What the moves of the child manager leave in the trace. *)
From stdpp Require Import base list gmap.
From Verif Require Import Base ChildMgrModel ChildMgrSpec ChildMgrProofs.
Open Scope N_scope.

Lemma count_app p l1 l2 : count p (l1 ++ l2) = count p l1 + count p l2.
Proof. unfold count. rewrite List.filter_app, app_length. lia. Qed.
Lemma count_zero p l : (forall x, x ∈ l -> p x = false) -> count p l = 0.
Proof.
  induction l as [|y l IH]; intros H; [done|]. unfold count in *. cbn. rewrite (H y) by left.
  apply IH. intros x Hx. apply H. by right.
Qed.
Lemma count_pos p l : 0 < count p l -> exists x, x ∈ l /\ p x = true.
Proof.
  induction l as [|y l IH]; intros H; [done|]. destruct (p y) eqn:E; [exists y; split; [left|done]|].
  unfold count in *. cbn in H. rewrite E in H. destruct (IH H) as (x & Hx & ?). exists x. split; [by right|done].
Qed.
Lemma not_attempt k e : (forall t, EAttempt k t ∉ e) -> count (is_attempt k) e = 0.
Proof.
  intros H. apply count_zero. intros x Hx. destruct x; try done. cbn. destruct (N.eqb_spec sid k) as [->|]; [|done].
  by apply H in Hx.
Qed.
Lemma attempt_in k e : 0 < count (is_attempt k) e -> exists t, EAttempt k t ∈ e.
Proof.
  intros H. apply count_pos in H as (x & Hx & E). destruct x; try done. cbn in E. apply N.eqb_eq in E as ->. by exists t.
Qed.

(** Where an entry comes from. *)
Inductive origin (s : cstate) (e : list cevent) (s' : cstate) (b : N) (j' : cinfo) : Prop :=
| or_same j : cm_map s !! b = Some j -> ci_sid j' = ci_sid j -> ci_cfg j' = ci_cfg j -> ci_attempts j' = ci_attempts j ->
    ci_last j' = ci_last j -> (ci_actor j' = ci_actor j \/ ci_actor j' = None) ->
    (is_Some (ci_actor j') -> ci_active j' = ci_active j) -> (ci_active j' = true -> ci_active j = true) ->
    (is_Some (ci_actor j') -> ci_shut j' = ci_shut j \/ (ci_shut j' <> SNone /\ (ci_shut j = SNone -> b = 0 \/ b ∈ cm_shutout s \/ EShutReq b ∈ e))) ->
    (forall k, ci_sid j' = Some k -> count (is_attempt k) e = 0) ->
    (ci_initialized j' = true -> ci_initialized j = true \/ EInitOk b ∈ e) -> origin s e s' b j'
| or_attempt a j k : cm_map s !! a = Some j -> a ∈ cm_spawnq s -> ci_active j = true -> ci_sid j = Some k ->
    ci_sid j' = Some k -> ci_cfg j' = ci_cfg j -> ci_attempts j' = ci_attempts j + 1 -> ci_last j' = cm_now s ->
    (is_Some (ci_actor j') -> b = cm_next s /\ ci_actor j' = Some b /\ ci_shut j' = SNone /\ ci_active j' = ci_active (spawn_attempt j (cm_now s)) /\ ECreated b ∈ e) ->
    count (is_attempt k) e = 1 -> b ∉ cm_spawnq s' -> ci_initialized j' = false -> origin s e s' b j'
| or_child : b = cm_next s -> ci_sid j' = None -> ci_actor j' = Some b -> ci_shut j' = SNone -> ci_last j' = cm_now s -> ECreated b ∈ e -> ci_initialized j' = false -> origin s e s' b j'
| or_spawner : b = cm_next s -> ci_sid j' = Some (cm_sids s) -> ci_attempts j' = 0 -> ci_last j' = 0 -> ci_actor j' = None -> ci_initialized j' = false ->
    ESpawner (cm_sids s) (ci_cfg j') ∈ e -> count (is_attempt (cm_sids s)) e = 0 -> origin s e s' b j'.

Lemma or_id s e s' b j : cm_map s !! b = Some j -> (forall k, ci_sid j = Some k -> count (is_attempt k) e = 0) -> origin s e s' b j.
Proof. intros H1 H2. eapply or_same; eauto. Qed.

Lemma quiet_not e x : Forall quiet e -> x ∈ e -> quiet x.
Proof. intros H. by apply Forall_forall. Qed.

Lemma shutreqs_app l1 l2 : shutreqs (l1 ++ l2) = shutreqs l1 ++ shutreqs l2.
Proof. apply omap_app. Qed.
Lemma in_shutreqs c l : c ∈ shutreqs l <-> EShutReq c ∈ l.
Proof.
  unfold shutreqs. rewrite elem_of_list_omap. split.
  - intros (x & Hx & E). destruct x; inversion E; subst; done.
  - intros H. by exists (EShutReq c).
Qed.

Lemma ask_events_in s x : x ∈ (request_shutdown_all s).2 ->
  (exists c a i, x = EShutReq c /\ cm_map s !! a = Some i /\ ci_actor i = Some c /\ ci_shut i = SNone) \/ x = EShutdownContinue.
Proof.
  destruct (ask_all_eq s) as [y ->]. cbn. intros H. apply elem_of_list_In, in_concat in H as (l & Hl & Hx).
  apply elem_of_list_In in Hl, Hx. apply elem_of_list_fmap in Hl as (i & -> & Hi). apply in_infos in Hi as [a Hi].
  unfold ask_events, asked, dropped_timer in Hx. destruct (ci_actor i) as [c|] eqn:Ha.
  - destruct (ci_shut i) eqn:Hs; [|by apply elem_of_nil in Hx..]. apply elem_of_list_singleton in Hx as ->. left. by eexists _, _, _.
  - destruct (ci_timer i =? 0); [by apply elem_of_nil in Hx|]. case_bool_decide; [|by apply elem_of_nil in Hx].
    apply elem_of_list_singleton in Hx as ->. by right.
Qed.
Lemma ask_events_of s a i c : cm_map s !! a = Some i -> ci_actor i = Some c -> ci_shut i = SNone -> EShutReq c ∈ (request_shutdown_all s).2.
Proof.
  intros Hm Ha Hs. destruct (ask_all_eq s) as [y ->]. cbn. apply elem_of_list_In, in_concat. exists (ask_events s i). split.
  - apply elem_of_list_In, elem_of_list_fmap. exists i. split; [done|]. apply in_infos. by exists a.
  - apply elem_of_list_In. unfold ask_events, asked. rewrite Ha, Hs. left.
Qed.
Lemma ask_shutreqs s : shutreqs (request_shutdown_all s).2 = omap asked (map_to_list (cm_map s)).*2.
Proof.
  destruct (ask_all_eq s) as [y ->]. cbn [snd]. generalize ((map_to_list (cm_map s)).*2). intros l.
  induction l as [|i l IH]; [done|]. rewrite fmap_cons. cbn [concat]. rewrite shutreqs_app, IH. clear IH.
  cbn [omap list_omap]. unfold ask_events at 1. destruct (asked i); [done|]. destruct (dropped_timer i); [case_bool_decide|]; done.
Qed.
Lemma ask_no_attempt s k : count (is_attempt k) (request_shutdown_all s).2 = 0.
Proof. apply not_attempt. intros t H. by apply ask_events_in in H as [(c & a & i & H & _)|H]. Qed.

Lemma omap_asked_nodup s : cinv s -> NoDup (omap asked (map_to_list (cm_map s)).*2).
Proof.
  intros Hv. assert (Hk : forall l, (forall p, p ∈ l -> cm_map s !! p.1 = Some p.2) -> NoDup l.*1 -> NoDup (omap asked l.*2) /\ forall c, c ∈ omap asked l.*2 -> c ∈ l.*1).
  { induction l as [|[a i] l IH]; intros Hl Hn; [by split; [constructor|]|].
    rewrite fmap_cons in Hn. cbn [fst] in Hn. inversion Hn as [|? ? Hn1 Hn2]; subst.
    destruct IH as [IH1 IH2]; [|done|]. { intros p Hp. apply Hl. by right. }
    assert (Hi : cm_map s !! a = Some i) by (apply (Hl (a, i)); left).
    assert (Hask : forall c, asked i = Some c -> c = a).
    { unfold asked. intros c. destruct (ci_actor i) as [c'|] eqn:Ha; [|done]. destruct (ci_shut i); intros Hx; inversion Hx; subst. by eapply v_key. }
    rewrite fmap_cons. cbn [snd omap list_omap]. destruct (asked i) as [c|].
    - rewrite (Hask c eq_refl). split.
      + constructor; [|done]. intros H. by apply IH2 in H.
      + intros c' H. apply elem_of_cons in H as [->|H]; [left|right; by apply IH2].
    - split; [done|]. intros c H. right. by apply IH2. }
  destruct (Hk (map_to_list (cm_map s))) as [H _]; [|apply NoDup_fst_map_to_list|done].
  intros [a i] H. by apply elem_of_map_to_list in H.
Qed.

Lemma move_origin F s e s' : move F s e s' -> cinv s -> forall b j', cm_map s' !! b = Some j' -> origin s e s' b j'.
Proof.
  intros Hmv Hv. destruct Hmv as [s s' e Hq He|s|s cfg|s a q Hq|s a q i k Hq Hm Hact Hk|s a q i k Hq Hm Hact Hk|s a q i k HF Hq Hm Hact Hk
    |s a i c abn ask Hm Hc|s a i c abn ask k i' Hm Hc Hk Hr Hn|s a i c abn ask k i' HF Hm Hc Hk Hr Hn
    |s id key i d Hs Hm Ht Hd Hr|s id key i Hs Hm|s a i c Hm Hc H0 Hsh|s i Hm Hsh]; intros b j' Hb.
  - pose proof (qr_map _ _ _ Hq b) as Hx. rewrite Hb in Hx. destruct (cm_map s !! b) as [j|] eqn:Ej; [|done]. destruct Hx.
    eapply or_same; try done; auto.
    + congruence.
    + intros _. destruct wk_shut as [?|[? H]]; [by left|]. right. split; [done|]. intros Hx. destruct (H Hx); auto.
    + intros k Hk. apply not_attempt. intros t Hin. by apply (quiet_not _ _ He) in Hin.
  - cbn in Hb. apply lookup_insert_Some in Hb as [[<- <-]|[Hne Hb]].
    + apply or_child; try done. left.
    + by apply or_id.
  - cbn in Hb. apply lookup_insert_Some in Hb as [[<- <-]|[Hne Hb]].
    + apply or_spawner; try done. left.
    + by apply or_id.
  - by apply or_id.
  - destruct (take_first_in _ _ _ Hq) as (Hin & Hsub & Hnd).
    destruct (spawn_attempt_fields i (cm_now s)) as (F1 & F2 & F3 & F4 & F5 & F6 & F7 & F8).
    cbn in Hb. apply lookup_insert_Some in Hb as [[<- <-]|[Hne Hb]].
    + eapply (or_attempt _ _ _ _ _ a i k); cbn; try done.
      * intros _. split_and!; try done. right. left.
      * unfold count. cbn. by rewrite N.eqb_refl.
      * intros Hx. apply Hsub in Hx. apply (v_q _ Hv) in Hx as (j & Hj & _). apply (v_fresh _ Hv) in Hj. lia.
    + apply lookup_delete_Some in Hb as [Hne' Hb]. apply or_id; [done|].
      intros k' Hk'. apply not_attempt. intros t Hx. apply elem_of_cons in Hx as [Hx|Hx].
      * inversion Hx; subst. apply Hne'. by eapply (v_sid _ Hv).
      * apply elem_of_cons in Hx as [Hx|Hx]; [done|]. by apply elem_of_list_singleton in Hx.
  - destruct (take_first_in _ _ _ Hq) as (Hin & Hsub & Hnd). destruct (v_q _ Hv _ Hin) as (i0 & Hm0 & Hnone & _).
    destruct (spawn_attempt_fields i (cm_now s)) as (F1 & F2 & F3 & F4 & F5 & F6 & F7 & F8).
    cbn in Hb. apply lookup_insert_Some in Hb as [[<- <-]|[Hne Hb]].
    + eapply (or_attempt _ _ _ _ _ a i k); cbn; try done.
      * rewrite F3. assert (i0 = i) as -> by congruence. rewrite Hnone. by intros [? ?].
      * unfold count. cbn. by rewrite N.eqb_refl.
      * by apply Hnd, Hv.
    + apply or_id; [done|].
      intros k' Hk'. apply not_attempt. intros t Hx. apply elem_of_list_singleton in Hx.
      inversion Hx; subst. apply Hne. by eapply (v_sid _ Hv a b i j').
  - destruct (take_first_in _ _ _ Hq) as (Hin & Hsub & Hnd). destruct (v_q _ Hv _ Hin) as (i0 & Hm0 & Hnone & _).
    destruct (spawn_attempt_fields i (cm_now s)) as (F1 & F2 & F3 & F4 & F5 & F6 & F7 & F8).
    cbn in Hb. apply lookup_insert_Some in Hb as [[<- <-]|[Hne Hb]].
    + eapply (or_attempt _ _ _ _ _ a i k); cbn; try done.
      * rewrite F3. assert (i0 = i) as -> by congruence. rewrite Hnone. by intros [? ?].
      * unfold count. cbn. by rewrite N.eqb_refl.
      * by apply Hnd, Hv.
    + apply or_id; [done|].
      intros k' Hk'. apply not_attempt. intros t Hx. apply elem_of_list_singleton in Hx.
      inversion Hx; subst. apply Hne. by eapply (v_sid _ Hv a b i j').
  - cbn in Hb. apply lookup_delete_Some in Hb as [Hne' Hb]. by apply or_id.
  - pose proof (next_spawn_same _ _ _ _ _ _ Hn (or_introl eq_refl)) as ->.
    cbn in Hb. apply lookup_insert_Some in Hb as [[<- <-]|[Hne Hb]]; [|by apply or_id].
    eapply or_same; try done; cbn; auto; by intros [? ?].
  - pose proof (next_spawn_same _ _ _ _ _ _ Hn (or_intror eq_refl)) as ->.
    cbn in Hb. apply lookup_insert_Some in Hb as [[<- <-]|[Hne Hb]]; [|by apply or_id].
    eapply or_same; try done; cbn; auto; by intros [? ?].
  - cbn in Hb. apply lookup_insert_Some in Hb as [[<- <-]|[Hne Hb]]; [|by apply or_id].
    eapply or_same; try done; cbn; auto.
  - cbn in Hb. apply lookup_insert_Some in Hb as [[<- <-]|[Hne Hb]]; [|by apply or_id].
    eapply or_same; try done; cbn; auto.
  - cbn in Hb. apply lookup_insert_Some in Hb as [[<- <-]|[Hne Hb]]; [|by apply or_id].
    assert (c = a) as -> by (by eapply v_key).
    eapply or_same; try done; cbn; auto. intros _. right. split; [done|]. intros _. right. right. left.
  - rewrite ask_all_map in Hb. rewrite lookup_fmap in Hb. destruct (cm_map s !! b) as [j|] eqn:Ej; inversion Hb; subst.
    destruct (ask_child_fields j) as (F1 & F2 & F3 & F4 & F5 & F6 & F7 & F8 & F9 & F10).
    eapply or_same; try done.
    + by left.
    + rewrite F3. intros. by apply F7.
    + rewrite F3. intros Hx. right. destruct (F7 Hx) as [G1 G2]. split; [done|]. intros Hsn. right. right.
      destruct Hx as [c Hc]. assert (c = b) as -> by (by eapply v_key). by eapply ask_events_of.
    + intros k _. apply ask_no_attempt.
    + intros H. left. revert H. unfold ask_child. destruct (ci_actor j), (ci_shut j); try done; by destruct (ci_timer j =? 0).
Qed.

(** Numbers only grow. *)
Lemma move_mono F s e s' : move F s e s' -> cm_next s <= cm_next s' /\ cm_sids s <= cm_sids s' /\ cm_now s <= cm_now s' /\
  (cm_now s = cm_now s' \/ qrel s e s').
Proof.
  intros Hmv. destruct Hmv; cbn -[request_shutdown_all]; split_and!; try lia; try (by left).
  - rewrite (qr_next _ _ _ H). lia.
  - rewrite (qr_sids _ _ _ H). lia.
  - apply H.
  - by right.
  - destruct (ask_all_eq s) as [y ->]. cbn. lia.
  - destruct (ask_all_eq s) as [y ->]. cbn. lia.
  - destruct (ask_all_eq s) as [y ->]. cbn. lia.
  - destruct (ask_all_eq s) as [y ->]. cbn. by left.
Qed.

(** Meaning of the events of a move. *)
Definition ev_ok (s : cstate) (e : list cevent) (s' : cstate) (x : cevent) : Prop :=
  match x with
  | ESpawner k _ => k = cm_sids s /\ cm_sids s' = k + 1 /\ forall y, y ∈ e -> y = x \/ y = ESpawnMsg (cm_next s)
  | EAttempt k t => t = cm_now s /\ count (is_attempt k) e = 1 /\
      exists a i, a ∈ cm_spawnq s /\ cm_map s !! a = Some i /\ ci_active i = true /\ ci_sid i = Some k
  | EInstance k c t => t = cm_now s /\ c = cm_next s /\ e = [EAttempt k t; ECreated c; EInstance k c t] /\ 
      (exists a i, a ∈ cm_spawnq s /\ cm_map s !! a = Some i /\ ci_active i = true /\ ci_sid i = Some k)
  | ECreated c => c = cm_next s /\ cm_next s' = c + 1 /\ exists i, cm_map s' !! c = Some i /\ ci_actor i = Some c
  | ERemoved c k abn ask => exists i, cm_map s !! c = Some i /\ ci_actor i = Some c /\ ci_sid i = k /\
      (cm_map s' !! c = None \/ exists i', cm_map s' !! c = Some i' /\ ci_actor i' = None /\ allowed (ci_cfg i) abn ask = true /\ is_Some k)
      /\ count (is_attempt (default 0 k)) e = 0 /\ (forall c', ECreated c' ∉ e)
  | EShutReq c => c <> 0 /\ exists i i', cm_map s !! c = Some i /\ ci_actor i = Some c /\ ci_shut i = SNone /\
      cm_map s' !! c = Some i' /\ ci_shut i' <> SNone
  | _ => True
  end.

Ltac fc := repeat first [apply Forall_nil_2 | apply Forall_cons_2]; try exact I.
Lemma move_events F s e s' : move F s e s' -> cinv s -> Forall (ev_ok s e s') e.
Proof.
  intros Hmv Hv. destruct Hmv as [s s' e Hq He|s|s cfg|s a q Hq|s a q i k Hq Hm Hact Hk|s a q i k Hq Hm Hact Hk|s a q i k HF Hq Hm Hact Hk
    |s a i c abn ask Hm Hc|s a i c abn ask k i' Hm Hc Hk Hr Hn|s a i c abn ask k i' HF Hm Hc Hk Hr Hn
    |s id key i d Hs Hm Ht Hd Hr|s id key i Hs Hm|s a i c Hm Hc H0 Hsh|s i Hm Hsh].
  - eapply Forall_impl; [exact He|]. intros x Hx. by destruct x.
  - fc. cbn. split_and!; try done. eexists. rewrite lookup_insert. split; [done|]. done.
  - fc. cbn. split_and!; try done.
    intros y Hy. apply elem_of_cons in Hy as [->|Hy]; [by left|]. apply elem_of_list_singleton in Hy as ->. by right.
  - constructor.
  - destruct (take_first_in _ _ _ Hq) as (Hin & Hsub & Hnd).
    assert (HX : exists a i, a ∈ cm_spawnq s /\ cm_map s !! a = Some i /\ ci_active i = true /\ ci_sid i = Some k) by (by exists a, i).
    fc; cbn; split_and!; try done.
    + unfold count. cbn. by rewrite N.eqb_refl.
    + eexists. rewrite lookup_insert. done.
  - destruct (take_first_in _ _ _ Hq) as (Hin & Hsub & Hnd). fc. cbn. split_and!; try done.
    + unfold count. cbn. by rewrite N.eqb_refl.
    + by exists a, i.
  - destruct (take_first_in _ _ _ Hq) as (Hin & Hsub & Hnd). fc. cbn. split_and!; try done.
    + unfold count. cbn. by rewrite N.eqb_refl.
    + by exists a, i.
  - assert (c = a) as -> by (by eapply v_key).
    fc. exists i. split_and!; try done.
    + left. cbn. apply lookup_delete.
    + intros c'. rewrite elem_of_list_singleton. done.
  - assert (c = a) as -> by (by eapply v_key).
    assert (Hal : allowed (ci_cfg i) abn ask = true).
    { destruct (next_spawn_now _ _ _ _ _ _ Hn (or_introl eq_refl)) as [(_ & _ & _ & ?)|(Hp & Hac & _)]; [done|].
      pose proof (v_never _ Hv _ _ Hm Hac Hp). pose proof (v_att _ Hv _ _ Hm ltac:(by eexists)). lia. }
    fc. exists i. split_and!; try done.
    + right. cbn. eexists. rewrite lookup_insert. by split_and!.
    + intros c' H. apply elem_of_cons in H as [H|H]; [done|]. by apply elem_of_list_singleton in H.
  - assert (c = a) as -> by (by eapply v_key).
    assert (Hal : allowed (ci_cfg i) abn ask = true).
    { destruct (next_spawn_now _ _ _ _ _ _ Hn (or_intror eq_refl)) as [(_ & _ & _ & ?)|(Hp & Hac & _)]; [done|].
      pose proof (v_never _ Hv _ _ Hm Hac Hp). pose proof (v_att _ Hv _ _ Hm ltac:(by eexists)). lia. }
    fc. exists i. split_and!; try done.
    + right. cbn. eexists. rewrite lookup_insert. by split_and!.
    + intros c' H. by apply elem_of_list_singleton in H.
  - by fc.
  - constructor.
  - assert (c = a) as -> by (by eapply v_key). fc. cbn. split; [done|]. exists i. eexists.
    rewrite lookup_insert. by split_and!.
  - apply Forall_forall. intros x Hx. apply ask_events_in in Hx as [(c & a & j & -> & Hj & Ha & Hs)|Hx]; [|by subst].
    assert (c = a) as -> by (by eapply v_key). cbn -[request_shutdown_all]. split; [intros ->; congruence|].
    exists j, (ask_child j). rewrite ask_all_map, lookup_fmap, Hj. split_and!; try done.
    apply ask_child_fields. rewrite Ha. by eexists.
Qed.

(** * Trace invariants *)
Definition att k ev := count (is_attempt k) ev.

Record kinv (s : cstate) (ev : list cevent) : Prop := {
  k_cfg : forall a i k, cm_map s !! a = Some i -> ci_sid i = Some k -> ESpawner k (ci_cfg i) ∈ ev;
  k_uniq : forall k c c', ESpawner k c ∈ ev -> ESpawner k c' ∈ ev -> c = c';
  k_old : forall k c, ESpawner k c ∈ ev -> k < cm_sids s;
  k_att : forall a i k, cm_map s !! a = Some i -> ci_sid i = Some k -> att k ev = ci_attempts i;
  k_none : forall k, cm_sids s <= k -> att k ev = 0;
  k_max : forall k c, ESpawner k c ∈ ev -> 0 < sc_max c -> att k ev <= sc_max c;
  k_never : forall k c, ESpawner k c ∈ ev -> sc_policy c = RNever -> att k ev <= 1;
  k_inst : forall k, count (is_instance k) ev <= att k ev;
  k_act : forall a i k, cm_map s !! a = Some i -> ci_sid i = Some k -> is_Some (ci_actor i) ->
    ci_active i = true \/ sc_policy (ci_cfg i) = RNever \/ (0 < sc_max (ci_cfg i) /\ sc_max (ci_cfg i) <= ci_attempts i)
}.

Lemma no_instance k e : (forall c t, EInstance k c t ∉ e) -> count (is_instance k) e = 0.
Proof.
  intros H. apply count_zero. intros x Hx. destruct x; try done. cbn. destruct (N.eqb_spec sid k) as [->|]; [|done].
  by apply H in Hx.
Qed.

Lemma kinv_move F s e s' ev : move F s e s' -> cinv s -> kinv s ev -> kinv s' (ev ++ e).
Proof.
  intros Hmv Hv Hk. pose proof (move_origin _ _ _ _ Hmv Hv) as Ho. pose proof (move_events _ _ _ _ Hmv Hv) as He.
  destruct (move_mono _ _ _ _ Hmv) as (_ & Hsids & _ & _).
  rewrite Forall_forall in He.
  assert (Hatt : forall k, att k (ev ++ e) = att k ev + att k e) by (intros; apply count_app).
  split.
  - intros b j k Hb Hsid. apply elem_of_app. destruct (Ho _ _ Hb).
    + left. rewrite H1. eapply k_cfg; [done|done|congruence].
    + left. rewrite H4. eapply k_cfg; [done|done|congruence].
    + congruence.
    + right. assert (k = cm_sids s) as -> by congruence. done.
  - intros k c c' H1 H2. apply elem_of_app in H1 as [H1|H1]; apply elem_of_app in H2 as [H2|H2].
    + by eapply k_uniq.
    + apply (k_old _ _ Hk) in H1. apply He in H2 as (H2 & _). lia.
    + apply (k_old _ _ Hk) in H2. apply He in H1 as (H1 & _). lia.
    + apply He in H1 as (_ & _ & H1). apply H1 in H2 as [H2|H2]; congruence.
  - intros k c H. apply elem_of_app in H as [H|H]; [apply (k_old _ _ Hk) in H; lia|]. apply He in H as (H1 & H2 & _). lia.
  - intros b j k Hb Hsid. rewrite Hatt. destruct (Ho _ _ Hb).
    + rewrite (k_att _ _ Hk _ _ _ H) by congruence. unfold att. rewrite H8 by done. lia.
    + assert (k0 = k) as -> by congruence. rewrite (k_att _ _ Hk _ _ _ H) by congruence. unfold att. lia.
    + congruence.
    + assert (k = cm_sids s) as -> by congruence. rewrite (k_none _ _ Hk) by lia. unfold att. lia.
  - intros k H. rewrite Hatt. rewrite (k_none _ _ Hk) by lia. apply not_attempt. intros t Hx.
    apply He in Hx as (_ & _ & a & i & _ & Hm & _ & Hs). pose proof (v_sidlt _ Hv _ _ _ Hm Hs). lia.
  - intros k c H Hpos. rewrite Hatt. apply elem_of_app in H as [H|H].
    + destruct (decide (0 < att k e)) as [Hgt|Hle].
      * apply attempt_in in Hgt as [t Hin]. apply He in Hin as (_ & Hone & a & i & _ & Hm & Hac & Hs).
        assert (ci_cfg i = c). { eapply k_uniq; [done| |done]. by eapply k_cfg. }
        rewrite (k_att _ _ Hk _ _ _ Hm Hs). pose proof (v_max _ Hv _ _ Hm Hac). subst c. unfold att. lia.
      * pose proof (k_max _ _ Hk _ _ H Hpos). lia.
    + apply He in H as (-> & _ & Hall). rewrite (k_none _ _ Hk) by lia.
      unfold att. rewrite (not_attempt _ e); [lia|]. intros t Hx. apply Hall in Hx as [?|?]; done.
  - intros k c H Hpos. rewrite Hatt. apply elem_of_app in H as [H|H].
    + destruct (decide (0 < att k e)) as [Hgt|Hle].
      * apply attempt_in in Hgt as [t Hin]. apply He in Hin as (_ & Hone & a & i & _ & Hm & Hac & Hs).
        assert (ci_cfg i = c). { eapply k_uniq; [done| |done]. by eapply k_cfg. }
        rewrite (k_att _ _ Hk _ _ _ Hm Hs). subst c. rewrite (v_never _ Hv _ _ Hm Hac Hpos). unfold att. lia.
      * pose proof (k_never _ _ Hk _ _ H Hpos). lia.
    + apply He in H as (-> & _ & Hall). rewrite (k_none _ _ Hk) by lia.
      unfold att. rewrite (not_attempt _ e); [lia|]. intros t Hx. apply Hall in Hx as [?|?]; done.
  - intros k. rewrite count_app, Hatt. pose proof (k_inst _ _ Hk k) as Hi.
    destruct (decide (0 < count (is_instance k) e)) as [Hgt|Hle]; [|lia].
    apply count_pos in Hgt as (x & Hx & E). destruct x; try done. cbn in E. apply N.eqb_eq in E as ->.
    apply He in Hx as (-> & -> & -> & _). unfold att, count. cbn. rewrite N.eqb_refl. cbn. unfold att, count in Hi. lia.
  - intros b j k Hb Hsid Hact. destruct (Ho _ _ Hb).
    + rewrite H1, H2, H5 by done. eapply (k_act _ _ Hk _ _ k); [done|congruence|]. destruct H4 as [<-|H4]; [done|].
      rewrite H4 in Hact. by destruct Hact.
    + destruct (H7 Hact) as (_ & _ & _ & Hx & _). rewrite Hx, H4, H5.
      unfold spawn_attempt. cbn. rewrite H1. cbn.
      destruct (N.ltb_spec 0 (sc_max (ci_cfg j0))), (N.leb_spec (sc_max (ci_cfg j0)) (ci_attempts j0 + 1)); cbn; auto;
        case_bool_decide; cbn; auto.
    + congruence.
    + rewrite H3 in Hact. by destruct Hact.
Qed.

Record tinv (F : Prop) (s : cstate) (ev : list cevent) : Prop := {
  t_last : forall a i k t, cm_map s !! a = Some i -> ci_sid i = Some k -> EAttempt k t ∈ ev -> t <= ci_last i;
  t_now : forall a i, cm_map s !! a = Some i -> ci_last i <= cm_now s;
  t_inst : forall k c t, EInstance k c t ∈ ev -> EAttempt k t ∈ ev;
  t_pend : F -> forall a i k, a ∈ cm_spawnq s -> cm_map s !! a = Some i -> ci_sid i = Some k -> 0 < ci_attempts i ->
    ci_last i + sc_period (ci_cfg i) <= cm_now s;
  t_dead : F -> forall a i d, cm_map s !! a = Some i -> ci_timer i <> 0 -> cm_timers s !! ci_timer i = Some d ->
    ci_last i + sc_period (ci_cfg i) <= d
}.

Lemma tinv_move F s e s' ev : move F s e s' -> cinv s -> kinv s ev -> tinv F s ev -> tinv F s' (ev ++ e).
Proof.
  intros Hmv Hv Hk Ht. pose proof (move_origin _ _ _ _ Hmv Hv) as Ho. pose proof (move_events _ _ _ _ Hmv Hv) as He.
  destruct (move_mono _ _ _ _ Hmv) as (_ & Hsids & Hnow & _).
  rewrite Forall_forall in He.
  split.
  - intros b j k t Hb Hsid Hin. apply elem_of_app in Hin as [Hin|Hin].
    + destruct (Ho _ _ Hb).
      * rewrite H3. eapply (t_last _ _ _ Ht); [done| |done]. congruence.
      * rewrite H6. pose proof (t_now _ _ _ Ht _ _ H). assert (t <= ci_last j0); [|lia].
        eapply (t_last _ _ _ Ht); [done| |done]. congruence.
      * congruence.
      * exfalso. assert (k = cm_sids s) as -> by congruence. pose proof (k_none _ _ Hk (cm_sids s) ltac:(lia)) as Hz.
        unfold att in Hz. apply elem_of_list_split in Hin as (l1 & l2 & ->). rewrite count_app in Hz. unfold count in Hz. cbn in Hz.
        rewrite N.eqb_refl in Hz. cbn in Hz. lia.
    + pose proof Hin as Hin0. apply He in Hin as (-> & Hone & a & i & _ & Hm & _ & Hs). destruct (Ho _ _ Hb).
      * rewrite H8 in Hone; [done|done].
      * rewrite H6. lia.
      * congruence.
      * assert (k = cm_sids s) as -> by congruence. congruence.
  - intros b j Hb. destruct (Ho _ _ Hb).
    + rewrite H3. pose proof (t_now _ _ _ Ht _ _ H). lia.
    + rewrite H6. lia.
    + rewrite H3. lia.
    + rewrite H2. lia.
  - intros k c t Hin. apply elem_of_app in Hin as [Hin|Hin]; apply elem_of_app; [left; by eapply t_inst|right].
    apply He in Hin as (-> & -> & -> & _). left.
  - intros HF b j k Hb Hm Hsid Hpos.
    destruct (Ho _ _ Hm) as [j0 Hj0 E1 E2 E3 E4 _ _ _ _ _ _|a j0 k0 _ _ _ _ _ _ _ _ _ _ Hno _| |_ _ E3 _ _ _ _ _]; [|done|congruence|lia].
    assert (Hold : b ∈ cm_spawnq s -> ci_last j + sc_period (ci_cfg j) <= cm_now s').
    { intros Hin. rewrite E2, E4. pose proof (t_pend _ _ _ Ht HF b j0 k Hin Hj0 ltac:(congruence) ltac:(congruence)). lia. }
    destruct Hmv as [s s' e Hq _|s|s cfg|s a q Hq|s a q i k' Hq Hm' Hact Hk'|s a q i k' Hq Hm' Hact Hk'|s a q i k' HF' Hq Hm' Hact Hk'
    |s a i c abn ask Hm' Hc|s a i c abn ask k' i' Hm' Hc Hk' Hr Hn|s a i c abn ask k' i' HF' Hm' Hc Hk' Hr Hn
    |s id key i d Hs Hm' Hti Hd Hr|s id key i Hs Hm'|s a i c Hm' Hc H0 Hsh|s i Hm' Hsh].
    + rewrite (qr_q _ _ _ Hq) in Hb. auto.
    + auto.
    + cbn in Hb. apply elem_of_app in Hb as [Hb|Hb]; [auto|]. apply elem_of_list_singleton in Hb as ->.
      apply (v_fresh _ Hv) in Hj0. lia.
    + apply Hold. by eapply take_first_in.
    + apply Hold. by eapply take_first_in.
    + apply Hold. by eapply take_first_in.
    + apply Hold. by eapply take_first_in.
    + auto.
    + cbn in Hb. apply elem_of_app in Hb as [Hb|Hb]; [auto|]. apply elem_of_list_singleton in Hb as ->.
      assert (j0 = i) as -> by congruence. rewrite E2, E4. cbn.
      pose proof (t_now _ _ _ Ht _ _ Hm') as Hln. clear -Hn Hln. unfold next_spawn in Hn.
      repeat match type of Hn with context [if ?c then _ else _] => destruct c eqn:? end; inversion Hn; subst.
      match goal with H : (_ <=? _) = true |- _ => apply N.leb_le in H end. lia.
    + auto.
    + cbn in Hb. apply elem_of_app in Hb as [Hb|Hb]; [auto|]. apply elem_of_list_singleton in Hb as ->.
      assert (j0 = i) as -> by congruence. rewrite E2, E4. cbn.
      destruct (v_spawning _ Hv _ _ Hs) as (H1 & _ & _ & j1 & Hj1 & Hj2). assert (j1 = i) as -> by congruence.
      pose proof (t_dead _ _ _ Ht HF _ _ d Hm' ltac:(lia) ltac:(congruence)). lia.
    + auto.
    + auto.
    + destruct (ask_all_eq s) as [y Hy]. rewrite Hy in Hb. auto.
  - intros HF b j d Hm Hnz Hd.
    assert (Hold : cm_map s !! b = Some j -> cm_timers s !! ci_timer j = Some d -> ci_last j + sc_period (ci_cfg j) <= d).
    { intros. by eapply (t_dead _ _ _ Ht HF). }
    assert (Hzero : forall a i, cm_map s !! a = Some i -> is_Some (ci_actor i) -> ci_timer i = 0) by (intros; by eapply timer_none).
    assert (Hlt : forall a i, cm_map s !! a = Some i -> ci_timer i <> 0 -> ci_timer i <> cm_tid s + 1).
    { intros a i Ha Hi. destruct (v_timer _ Hv _ _ Ha Hi) as [_ Hs]. destruct (v_spawning _ Hv _ _ Hs) as (_ & ? & _). lia. }
    clear Ho He.
    destruct Hmv as [s s' e Hq Hqe|s|s cfg|s a' q Hq|s a' q i k' Hq Hm' Hact Hk'|s a' q i k' Hq Hm' Hact Hk'|s a' q i k' HF' Hq Hm' Hact Hk'
    |s a' i c abn ask Hm' Hc|s a' i c abn ask k' i' Hm' Hc Hk' Hr Hn|s a' i c abn ask k' i' HF' Hm' Hc Hk' Hr Hn
    |s id key i d' Hs Hm' Hti Hd' Hr|s id key i Hs Hm'|s a' i c Hm' Hc H0 Hsh|s i Hm' Hsh].
    + pose proof (qr_map _ _ _ Hq b) as Hx. rewrite Hm in Hx. destruct (cm_map s !! b) as [j0|] eqn:Ej; [|done]. destruct Hx.
      rewrite (qr_timers _ _ _ Hq) in Hd. rewrite wk_last, wk_cfg. rewrite wk_timer in Hnz, Hd. by eapply (t_dead _ _ _ Ht HF).
    + cbn in Hm, Hd. apply lookup_insert_Some in Hm as [[<- <-]|[Hne Hm]]; [done|auto].
    + cbn in Hm, Hd. apply lookup_insert_Some in Hm as [[<- <-]|[Hne Hm]]; [done|auto].
    + auto.
    + cbn in Hm, Hd. apply lookup_insert_Some in Hm as [[<- <-]|[Hne Hm]]; [done|]. apply lookup_delete_Some in Hm as [_ Hm]. auto.
    + cbn in Hm, Hd. apply lookup_insert_Some in Hm as [[<- <-]|[Hne Hm]]; [done|auto].
    + cbn in Hm, Hd. apply lookup_insert_Some in Hm as [[<- <-]|[Hne Hm]].
      * cbn in Hd. rewrite lookup_insert in Hd. inversion Hd; subst. rewrite HF' by done. cbn.
        destruct (spawn_attempt_fields i (cm_now s)) as (_ & -> & _ & _ & _ & -> & _). lia.
      * rewrite lookup_insert_ne in Hd; [auto|]. intros Hx. symmetry in Hx. revert Hx. by eapply Hlt.
    + cbn in Hm, Hd. apply lookup_delete_Some in Hm as [_ Hm]. auto.
    + pose proof (next_spawn_same _ _ _ _ _ _ Hn (or_introl eq_refl)) as ->.
      cbn in Hm, Hd. apply lookup_insert_Some in Hm as [[<- <-]|[Hne Hm]]; [|auto]. cbn in Hnz. rewrite (Hzero _ _ Hm') in Hnz; [done|by eexists].
    + pose proof (next_spawn_same _ _ _ _ _ _ Hn (or_intror eq_refl)) as ->.
      cbn in Hm, Hd. apply lookup_insert_Some in Hm as [[<- <-]|[Hne Hm]].
      * cbn in Hd. rewrite lookup_insert in Hd. inversion Hd; subst. rewrite HF' by done. cbn.
        pose proof (t_now _ _ _ Ht _ _ Hm'). lia.
      * rewrite lookup_insert_ne in Hd; [auto|]. intros Hx. symmetry in Hx. revert Hx. by eapply Hlt.
    + cbn in Hm, Hd. apply lookup_delete_Some in Hd as [_ Hd]. apply lookup_insert_Some in Hm as [[<- <-]|[Hne Hm]]; [done|auto].
    + cbn in Hm, Hd. apply lookup_delete_Some in Hd as [_ Hd]. apply lookup_insert_Some in Hm as [[<- <-]|[Hne Hm]]; [done|auto].
    + cbn in Hm, Hd. apply lookup_insert_Some in Hm as [[<- <-]|[Hne Hm]]; [|auto]. cbn in Hnz. rewrite (Hzero _ _ Hm') in Hnz; [done|by eexists].
    + destruct (ask_all_notimers s Hv) as [_ Hx]. rewrite Hx, lookup_empty in Hd. done.
Qed.


Record hinv (s : cstate) (ev : list cevent) : Prop := {
  h_out : forall c, c ∈ cm_shutout s -> EShutReq c ∈ ev;
  h_asked : forall a i, cm_map s !! a = Some i -> a <> 0 -> is_Some (ci_actor i) -> ci_shut i <> SNone -> EShutReq a ∈ ev;
  h_not : forall c, EShutReq c ∈ ev -> c < cm_next s /\ c <> 0 /\
    forall i, cm_map s !! c = Some i -> is_Some (ci_actor i) -> ci_shut i <> SNone;
  h_nodup : NoDup (shutreqs ev);
  h_live : forall c, ECreated c ∈ ev -> (exists i, cm_map s !! c = Some i /\ ci_actor i = Some c) \/ removed c ev;
  h_created : forall a i, cm_map s !! a = Some i -> a <> 0 -> is_Some (ci_actor i) -> ECreated a ∈ ev;
  h_next : forall c, ECreated c ∈ ev -> c <> 0 /\ c < cm_next s;
  h_removed : forall c, removed c ev -> c < cm_next s /\ forall i, cm_map s !! c = Some i -> ci_actor i = None;
  h_init : forall a i, cm_map s !! a = Some i -> ci_initialized i = true -> EInitOk a ∈ ev
}.

Lemma removed_app c l1 l2 : removed c (l1 ++ l2) <-> removed c l1 \/ removed c l2.
Proof.
  unfold removed. split.
  - intros (k & abn & ask & H). apply elem_of_app in H as [H|H]; [left|right]; eauto.
  - intros [(k & abn & ask & H)|(k & abn & ask & H)]; exists k, abn, ask; apply elem_of_app; auto.
Qed.

(** An entry with an actor stays one, unless the actor is removed. *)
Lemma move_live F s e s' a i : move F s e s' -> cinv s -> cm_map s !! a = Some i -> is_Some (ci_actor i) ->
  (exists i', cm_map s' !! a = Some i' /\ ci_actor i' = ci_actor i) \/ removed a e.
Proof.
  intros Hmv Hv Hm Ha.
  assert (Hq : a ∉ cm_spawnq s). { intros Hin. destruct (v_q _ Hv _ Hin) as (j & Hj & Hn & _). rewrite Hm in Hj. inversion Hj; subst. rewrite Hn in Ha. by destruct Ha. }
  assert (Hother : forall b j (m : gmap N cinfo), m = cm_map s -> a <> b -> exists i', <[b := j]> m !! a = Some i' /\ ci_actor i' = ci_actor i).
  { intros b j m -> Hne. exists i. by rewrite lookup_insert_ne. }
  pose proof (v_fresh _ Hv _ _ Hm) as Hfr.
  destruct Hmv as [s s' e Hqr Hqe|s|s cfg|s a' q Hq'|s a' q i1 k' Hq' Hm' Hact Hk'|s a' q i1 k' Hq' Hm' Hact Hk'|s a' q i1 k' HF' Hq' Hm' Hact Hk'
    |s a' i1 c abn ask Hm' Hc|s a' i1 c abn ask k' i' Hm' Hc Hk' Hr Hn|s a' i1 c abn ask k' i' HF' Hm' Hc Hk' Hr Hn
    |s id key i1 d' Hs Hm' Hti Hd' Hr|s id key i1 Hs Hm'|s a' i1 c Hm' Hc H0 Hsh|s i1 Hm' Hsh].
  - pose proof (qr_map _ _ _ Hqr a) as Hx. rewrite Hm in Hx. destruct (cm_map s' !! a) as [j|]; [|done]. destruct Hx. left. by exists j.
  - left. apply Hother; [done|lia].
  - left. apply Hother; [done|lia].
  - left. by exists i.
  - assert (a <> a') by (intros ->; by apply take_first_in in Hq' as [? _]).
    left. exists i. cbn. rewrite lookup_insert_ne, lookup_delete_ne; [done|done|lia].
  - assert (a <> a') by (intros ->; by apply take_first_in in Hq' as [? _]). left. by apply Hother.
  - assert (a <> a') by (intros ->; by apply take_first_in in Hq' as [? _]). left. by apply Hother.
  - destruct (decide (a = a')) as [->|Hne].
    + right. assert (c = a') as -> by (by eapply (v_key _ Hv a' i1)). exists (ci_sid i1), abn, ask. left.
    + left. exists i. cbn. by rewrite lookup_delete_ne.
  - destruct (decide (a = a')) as [->|Hne]; [|left; by apply Hother].
    right. assert (c = a') as -> by (by eapply (v_key _ Hv a' i1)). exists (Some k'), abn, ask. left.
  - destruct (decide (a = a')) as [->|Hne]; [|left; by apply Hother].
    right. assert (c = a') as -> by (by eapply (v_key _ Hv a' i1)). exists (Some k'), abn, ask. left.
  - left. destruct (decide (a = key)) as [->|Hne]; [|by apply Hother]. exists (i_timer i1 0). cbn. rewrite lookup_insert. split; [done|]. cbn. congruence.
  - left. destruct (decide (a = key)) as [->|Hne]; [|by apply Hother]. exists (i_timer i1 0). cbn. rewrite lookup_insert. split; [done|]. cbn. congruence.
  - left. destruct (decide (a = a')) as [->|Hne]; [|by apply Hother]. exists (i_shut i1 SSent). cbn. rewrite lookup_insert. split; [done|]. cbn. congruence.
  - left. exists (ask_child i). rewrite ask_all_map, lookup_fmap, Hm. split; [done|]. apply ask_child_fields.
Qed.

Lemma move_out F s e s' c : move F s e s' -> c ∈ cm_shutout s' -> c ∈ cm_shutout s \/ EShutReq c ∈ e.
Proof.
  intros Hmv Hin.
  destruct Hmv as [s s' e Hqr Hqe|s|s cfg|s a' q Hq'|s a' q i1 k' Hq' Hm' Hact Hk'|s a' q i1 k' Hq' Hm' Hact Hk'|s a' q i1 k' HF' Hq' Hm' Hact Hk'
    |s a' i1 c' abn ask Hm' Hc|s a' i1 c' abn ask k' i' Hm' Hc Hk' Hr Hn|s a' i1 c' abn ask k' i' HF' Hm' Hc Hk' Hr Hn
    |s id key i1 d' Hs Hm' Hti Hd' Hr|s id key i1 Hs Hm'|s a' i1 c' Hm' Hc H0 Hsh|s i1 Hm' Hsh]; try (by left).
  - left. by apply (qr_out _ _ _ Hqr).
  - cbn in Hin. apply elem_of_union in Hin as [Hin|Hin]; [by left|]. apply elem_of_singleton in Hin as ->. right. left.
  - pose proof (ask_shutreqs s) as Hsr. destruct (ask_all_eq s) as [y Hy]. rewrite Hy in Hin. cbn in Hin.
    apply elem_of_union in Hin as [Hin|Hin]; [by left|]. right. apply elem_of_list_to_set in Hin. rewrite <-Hsr in Hin. by apply in_shutreqs.
Qed.

Lemma move_shutreqs_nodup F s e s' : move F s e s' -> cinv s -> NoDup (shutreqs e).
Proof.
  intros Hmv Hv. destruct Hmv; try (by constructor).
  - assert (shutreqs e = []) as ->; [|constructor]. apply elem_of_nil_inv. intros x Hx. apply in_shutreqs in Hx.
    by apply (quiet_not _ _ H0) in Hx.
  - apply NoDup_singleton.
  - rewrite ask_shutreqs. by apply omap_asked_nodup.
Qed.

Lemma hinv_move F s e s' ev : move F s e s' -> cinv s -> hinv s ev -> hinv s' (ev ++ e).
Proof.
  intros Hmv Hv Hh. pose proof (move_origin _ _ _ _ Hmv Hv) as Ho. pose proof (move_events _ _ _ _ Hmv Hv) as He.
  destruct (move_mono _ _ _ _ Hmv) as (Hnext & _ & _ & _). rewrite Forall_forall in He.
  pose proof (v_next _ Hv) as Hn1.
  assert (Hno : forall c i, cm_map s !! c = Some i -> is_Some (ci_actor i) -> ci_shut i = SNone -> EShutReq c ∉ ev).
  { intros c i Hm Ha Hs Hin. apply (h_not _ _ Hh) in Hin as (_ & _ & Hx). by apply (Hx _ Hm). }
  split.
  - intros c Hin. apply elem_of_app. destruct (move_out _ _ _ _ _ Hmv Hin) as [H|H]; [left; by apply (h_out _ _ Hh)|by right].
  - intros b j Hb Hb0 Ha Hs. apply elem_of_app. destruct (Ho _ _ Hb) as [j0 Hj E1 E2 E3 E4 E5 E6 E7 E8 E9 E10|a j0 k0 _ _ _ _ _ _ _ _ E9 _ _ E10| |].
    + assert (Ha0 : is_Some (ci_actor j0)). { destruct E5 as [<-|E5]; [done|]. rewrite E5 in Ha. by destruct Ha. }
      destruct (decide (ci_shut j0 = SNone)) as [Hsn|Hsn]; [|left; by eapply h_asked].
      destruct (E8 Ha) as [E8'|[_ E8']]; [congruence|]. destruct (E8' Hsn) as [?|[?|?]]; [done| |by right].
      left. by apply (h_out _ _ Hh).
    + destruct (E9 Ha) as (_ & _ & Hx & _). congruence.
    + congruence.
    + rewrite H3 in Ha. by destruct Ha.
  - intros c Hin. apply elem_of_app in Hin as [Hin|Hin].
    + destruct (h_not _ _ Hh _ Hin) as (H1 & H2 & H3). split_and!; [lia|done|]. intros j Hj Ha.
      destruct (Ho _ _ Hj) as [j0 Hj0 E1 E2 E3 E4 E5 E6 E7 E8 E9 E10|a j0 k0 _ _ _ _ _ _ _ _ E9 _ _ E10| |]; [|destruct (E9 Ha); lia|lia|lia].
      assert (Ha0 : is_Some (ci_actor j0)). { destruct E5 as [<-|E5]; [done|]. rewrite E5 in Ha. by destruct Ha. }
      specialize (H3 _ Hj0 Ha0). destruct (E8 Ha) as [->|[? _]]; done.
    + apply He in Hin as (H1 & i & i' & Hi & Ha & Hs & Hi' & Hs'). pose proof (v_fresh _ Hv _ _ Hi). split_and!; [lia|done|].
      intros j Hj _. congruence.
  - rewrite shutreqs_app. apply NoDup_app. split; [apply Hh|]. split; [|by eapply move_shutreqs_nodup].
    intros c H1 H2. apply in_shutreqs in H1, H2. apply He in H2 as (_ & i & i' & Hi & Ha & Hs & _). eapply Hno; [done|by rewrite Ha|done..].
  - intros c Hin. apply elem_of_app in Hin as [Hin|Hin].
    + destruct (h_live _ _ Hh _ Hin) as [(i & Hi & Ha)|Hr]; [|right; apply removed_app; by left].
      destruct (move_live _ _ _ _ _ _ Hmv Hv Hi) as [(i' & Hi' & Ha')|Hr]; [by rewrite Ha| |right; apply removed_app; by right].
      left. exists i'. split; [done|congruence].
    + apply He in Hin as (_ & _ & Hx). by left.
  - intros b j Hb Hb0 Ha. apply elem_of_app. destruct (Ho _ _ Hb) as [j0 Hj E1 E2 E3 E4 E5 E6 E7 E8 E9 E10|a j0 k0 _ _ _ _ _ _ _ _ E9 _ _ E10| |].
    + left. eapply h_created; [done..|]. destruct E5 as [<-|E5]; [done|]. rewrite E5 in Ha. by destruct Ha.
    + right. by destruct (E9 Ha) as (_ & _ & _ & _ & Hx).
    + by right.
    + rewrite H3 in Ha. by destruct Ha.
  - intros c Hin. apply elem_of_app in Hin as [Hin|Hin].
    + destruct (h_next _ _ Hh _ Hin). split; [done|lia].
    + apply He in Hin as (-> & -> & _). lia.
  - intros c Hr. apply removed_app in Hr as [Hr|Hr].
    + destruct (h_removed _ _ Hh _ Hr) as [H1 H2]. split; [lia|]. intros j Hj.
      destruct (ci_actor j) as [x|] eqn:Hx; [|done]. exfalso.
      destruct (Ho _ _ Hj) as [j0 Hj0 E1 E2 E3 E4 E5 E6 E7 E8 E9 E10|a j0 k0 _ _ _ _ _ _ _ _ E9 _ _ E10| |]; [|destruct (E9 ltac:(by eexists)); lia|lia|lia].
      specialize (H2 _ Hj0). destruct E5; congruence.
    + destruct Hr as (k & abn & ask & Hin). apply He in Hin as (i & Hi & Ha & Hs & Hx & _). pose proof (v_fresh _ Hv _ _ Hi).
      split; [lia|]. intros j Hj. destruct Hx as [Hx|(i' & Hi' & Hx & _)]; congruence.
  - intros b j Hj Hi. apply elem_of_app. destruct (Ho _ _ Hj) as [j0 Hj0 E1 E2 E3 E4 E5 E6 E7 E8 E9 E10|a j0 k0 _ _ _ _ _ _ _ _ E9 _ _ E10| |]; [|congruence..].
    destruct (E10 Hi) as [H|H]; [left; by eapply h_init|by right].
Qed.

Lemma kinv_init hp : kinv (cinit hp) [].
Proof.
  split; cbn; try (by intros; apply elem_of_nil in H); try done.
  - intros a i k H Hs. apply lookup_singleton_Some in H as [<- <-]. done.
  - intros a i k H Hs. apply lookup_singleton_Some in H as [<- <-]. done.
  - intros a i k H Hs. apply lookup_singleton_Some in H as [<- <-]. done.
Qed.
Lemma tinv_init F hp : tinv F (cinit hp) [].
Proof.
  split; cbn.
  - intros a i k t _ _ H. by apply elem_of_nil in H.
  - intros a i H. apply lookup_singleton_Some in H as [<- <-]. done.
  - intros k c t H. by apply elem_of_nil in H.
  - intros _ a i k H. by apply elem_of_nil in H.
  - intros _ a i d _ _ H. by rewrite lookup_empty in H.
Qed.
Lemma hinv_init hp : hinv (cinit hp) [].
Proof.
  split; cbn; try (by intros ? H; apply elem_of_nil in H).
  - intros c H. by apply elem_of_empty in H.
  - intros a i H Ha. apply lookup_singleton_Some in H as [<- <-]. done.
  - constructor.
  - intros a i H Ha. apply lookup_singleton_Some in H as [<- <-]. done.
  - intros c (k & abn & ask & H). by apply elem_of_nil in H.
  - intros a i H Ha. apply lookup_singleton_Some in H as [<- <-]. done.
Qed.

Record allinv (F : Prop) (s : cstate) (ev : list cevent) : Prop := {
  ai_c : cinv s; ai_k : kinv s ev; ai_t : tinv F s ev; ai_h : hinv s ev }.
Lemma allinv_init F hp : allinv F (cinit hp) [].
Proof. split; [apply cinv_init|apply kinv_init|apply tinv_init|apply hinv_init]. Qed.
Lemma allinv_moves F s e s' ev : moves F s e s' -> allinv F s ev -> allinv F s' (ev ++ e).
Proof.
  intros Hms. revert ev. induction Hms as [s|s e s1 e1 s2 Hm Hms IH]; intros ev [H1 H2 H3 H4]; [by rewrite app_nil_r|].
  rewrite (assoc_L (++)). apply IH. split; [by eapply cinv_move|by eapply kinv_move|by eapply tinv_move|by eapply hinv_move].
Qed.
