From stdpp Require Import base list gmap.
From Verif Require Import Base ChildMgrModel ChildMgrSpec ChildMgrProofs ChildMgrTrace ChildMgrFacts FamilyModel FamilySpec FamilySteps FamilyInv FamilyProofs FamilyEndSpec.
From Verif Require FlowSpec FlowInv FlowProofs SystemProofs.
Open Scope N_scope.

(** ** Moves of the child manager *)
Lemma move_rank F s e s' : move F s e s' -> 5 <= rank (cm_state s) -> 5 <= rank (cm_state s').
Proof.
  intros Hm Hr. destruct Hm; try done.
  - by apply (qr_rank _ _ _ H).
  - unfold request_shutdown_all. cbn. generalize (omap asked (map_to_list (cm_map s)).*2). intros l.
    assert (forall l s, cm_state (foldl cancel_init s l) = cm_state s) as ->; [|done].
    clear. induction l as [|c l IH]; intros s; [done|]. cbn. rewrite IH. destruct (cancel_init_eq s c) as [x ->]. done.
Qed.
Lemma moves_rank F s e s' : moves F s e s' -> 5 <= rank (cm_state s) -> 5 <= rank (cm_state s').
Proof. induction 1 as [|s0 e0 s1 e1 s2 Hm Hms IH]; [done|]. intros Hr. apply IH. by eapply move_rank. Qed.

(** A lost spawner stays lost. *)
Lemma lost_move F s e s' a : move F s e s' -> cinv s -> 5 <= rank (cm_state s) -> lost s a -> lost s' a.
Proof.
  intros Hm Hv Hr (i & Hi & Ha & Ht & Hc & Hq). pose proof (v_fresh _ Hv _ _ Hi) as Hfr.
  destruct Hm as [s s' e Hqr He|s|s cfg|s b q Hb|s b q j k Hb Hj Hac Hk|s b q j k Hb Hj Hac Hk|s b q j k HF Hb Hj Hac Hk|s b j c abn ask Hj Hjc
    |s b j c abn ask k j' Hj Hjc Hk Hr4|s b j c abn ask k j' HF Hj Hjc Hk Hr4|s id key j d Hs Hj Hd Hn Hr4|s id key j Hs Hj|s b j c Hj Hjc Hc0 Hsh|s j Hj Hsh]; try lia.
  - pose proof (qr_map _ _ _ Hqr a) as Hm. rewrite Hi in Hm. destruct (cm_map s' !! a) as [i'|] eqn:Hi'; [|done]. destruct Hm.
    exists i'. rewrite (qr_q _ _ _ Hqr). by split_and!; congruence || done.
  - exists i. cbn. rewrite lookup_insert_ne by lia. done.
  - exists i. cbn. rewrite lookup_insert_ne by lia. split_and!; try done. rewrite elem_of_app, elem_of_list_singleton. intros [?|?]; [done|lia].
  - exists i. split_and!; try done. cbn. apply take_first_in in Hb as (_ & Hx & _). intros Hq'. apply Hq. by apply Hx.
  - exists i. cbn. pose proof (take_first_in _ _ _ Hb) as (Hin & Hx & _). assert (a <> b) by (by intros ->).
    rewrite lookup_insert_ne, lookup_delete_ne by (done || lia). split_and!; try done. intros Hq'. apply Hq. by apply Hx.
  - exists i. cbn. pose proof (take_first_in _ _ _ Hb) as (Hin & Hx & _). assert (a <> b) by (by intros ->).
    rewrite lookup_insert_ne by done. split_and!; try done. intros Hq'. apply Hq. by apply Hx.
  - exists i. cbn. pose proof (take_first_in _ _ _ Hb) as (Hin & Hx & _). assert (a <> b) by (by intros ->).
    rewrite lookup_insert_ne by done. split_and!; try done. intros Hq'. apply Hq. by apply Hx.
  - exists i. cbn. assert (a <> b) by (intros ->; congruence). rewrite lookup_delete_ne by done. done.
  - exists i. cbn. destruct (v_spawning _ Hv _ _ Hs) as (Hid & _ & _ & j' & Hj' & Hjt). assert (a <> key) by (intros ->; congruence).
    rewrite lookup_insert_ne by done. done.
  - exists i. cbn. assert (a <> b) by (intros ->; congruence). rewrite lookup_insert_ne by done. done.
  - assert (Hk : ask_child i = i) by (unfold ask_child; by rewrite Ha, Ht).
    exists i. rewrite ask_all_map, lookup_fmap, Hi. split_and!; try done; [cbn [fmap option_fmap option_map]; by rewrite Hk|].
    destruct (ask_all_eq s) as [x ->]. done.
Qed.
Lemma lost_moves F s e s' a : moves F s e s' -> cinv s -> 5 <= rank (cm_state s) -> lost s a -> lost s' a.
Proof.
  induction 1 as [|s0 e0 s1 e1 s2 Hm Hms IH]; [done|]. intros Hv Hr Hl. apply IH; [by eapply cinv_move|by eapply move_rank|by eapply lost_move].
Qed.

(** All asked stays so while no actor is made. *)
Definition newish (e : cevent) : Prop := match e with ECreated _ | ESpawner _ _ => True | _ => False end.
Lemma asked_move F s e s' : move F s e s' -> cinv s -> 5 <= rank (cm_state s) -> Forall (fun x => ~ newish x) e -> all_asked s -> all_asked s'.
Proof.
  intros Hm Hv Hr Hn HK.
  destruct Hm as [s s' e Hqr He|s|s cfg|s b q Hb|s b q j k Hb Hj Hac Hk|s b q j k Hb Hj Hac Hk|s b q j k HF Hb Hj Hac Hk|s b j c abn ask Hj Hjc
    |s b j c abn ask k j' Hj Hjc Hk Hr4|s b j c abn ask k j' HF Hj Hjc Hk Hr4|s id key j d Hs Hj Hd Hnow Hr4|s id key j Hs Hj|s b j c Hj Hjc Hc0 Hsh|s j Hj Hsh]; try lia;
    try (exfalso; cbn in Hn; rewrite ?Forall_cons in Hn; cbn in Hn; tauto).
  - intros a i' Hi'. pose proof (qr_map _ _ _ Hqr a) as Hm. rewrite Hi' in Hm. destruct (cm_map s !! a) as [i|] eqn:Hi; [|done].
    specialize (HK a i Hi). destruct Hm as [_ _ _ -> -> _ _ -> Hsh]. destruct (ci_actor i); [|done]. destruct Hsh as [->|[? _]]; done.
  - done.
  - exfalso. destruct (v_q _ Hv b) as (j' & Hj' & Hja & _); [by apply take_first_in in Hb as [? _]|]. specialize (HK _ _ Hj'). rewrite Hja in HK. destruct HK. congruence.
  - exfalso. destruct (v_q _ Hv b) as (j' & Hj' & Hja & _); [by apply take_first_in in Hb as [? _]|]. specialize (HK _ _ Hj'). rewrite Hja in HK. destruct HK. congruence.
  - intros a i Hi. cbn in Hi. apply lookup_delete_Some in Hi as [_ Hi]. by apply (HK a).
  - exfalso. destruct (v_spawning _ Hv _ _ Hs) as (Hid & _ & _ & j' & Hj' & Hjt). destruct (v_timer _ Hv _ _ Hj' ltac:(congruence)) as [Hja _].
    specialize (HK _ _ Hj'). rewrite Hja in HK. destruct HK. congruence.
  - intros a i Hi. cbn in Hi. apply lookup_insert_Some in Hi as [[<- <-]|[_ Hi]]; [cbn; by rewrite Hjc|by apply (HK a)].
  - intros a i Hi. rewrite ask_all_map, lookup_fmap in Hi. destruct (cm_map s !! a) as [i0|] eqn:Hi0; [|done]. cbn in Hi. injection Hi as <-.
    specialize (HK a i0 Hi0). unfold ask_child. destruct (ci_actor i0) eqn:Ea.
    + destruct (ci_shut i0) eqn:Es; cbn; rewrite ?Ea, ?Es; done.
    + destruct HK as [H1 H2]. rewrite H2. cbn. by rewrite Ea.
Qed.
Lemma asked_moves F s e s' : moves F s e s' -> cinv s -> 5 <= rank (cm_state s) -> Forall (fun x => ~ newish x) e -> all_asked s -> all_asked s'.
Proof.
  induction 1 as [|s0 e0 s1 e1 s2 Hm Hms IH]; [done|]. intros Hv Hr Hn Hl. apply Forall_app in Hn as [Hn1 Hn2].
  apply IH; [by eapply cinv_move|by eapply move_rank|done|by eapply asked_move].
Qed.

Section cm.
Context (hp : bool) (policy : spolicy) (sync : bool).
Notation step := (cstep hp policy sync).

Definition no_lost (s : cstate) : Prop := forall a, ~ lost s a.
Definition slack (i : cinfo) : Prop := ci_actor i = None /\ ci_timer i = 0 /\ ci_active i = true.
Lemma no_lost_rel s s' : no_lost s -> (forall a i', cm_map s' !! a = Some i' -> slack i' ->
  a ∈ cm_spawnq s' \/ exists i, cm_map s !! a = Some i /\ slack i /\ (a ∈ cm_spawnq s -> a ∈ cm_spawnq s')) -> no_lost s'.
Proof.
  intros Hn H a (i' & Hi' & H1 & H2 & H3 & Hq). destruct (H a i' Hi' ltac:(done)) as [?|(i & Hi & (S1 & S2 & S3) & Hx)]; [done|].
  apply (Hn a). exists i. split_and!; try done. intros ?. by apply Hq, Hx.
Qed.
Lemma no_lost_same s s' : no_lost s -> cm_map s' = cm_map s -> cm_spawnq s' = cm_spawnq s -> no_lost s'.
Proof. intros Hn E1 E2. apply (no_lost_rel s); [done|]. intros a i. rewrite E1, E2. right. eauto. Qed.
(** An entry is replaced by one which is as it was, in what counts here. *)
Lemma no_lost_put s a i i' : no_lost s -> cm_map s !! a = Some i -> (slack i' -> slack i) -> no_lost (put_info s a i').
Proof.
  intros Hn Hi Hs. apply (no_lost_rel s); [done|]. intros b j Hj Hsl. right. cbn in Hj. apply lookup_insert_Some in Hj as [[<- <-]|[_ Hj]]; [|by exists j]. exists i. auto.
Qed.
Lemma no_lost_put2 s a i' : no_lost s -> ~ slack i' -> no_lost (put_info s a i').
Proof. intros Hn Hs. apply (no_lost_rel s); [done|]. intros b j Hj Hsl. right. cbn in Hj. apply lookup_insert_Some in Hj as [[<- <-]|[_ Hj]]; [done|by exists j]. Qed.

Lemma next_now_active i abn ask now i' : next_spawn i abn ask now = (i', DNow) \/ next_spawn i abn ask now = (i', DAfter) -> i' = i.
Proof. unfold next_spawn. repeat (case_match; try (intros [?|?]; congruence)). Qed.

Lemma remove_no_lost s a ask s' e : no_lost s -> remove_child policy s a ask = Ok (s', e) -> no_lost s'.
Proof.
  intros Hn. unfold remove_child. destruct (cm_map s !! a) as [i|] eqn:Hi; [|done].
  match goal with |- match ?p with _ => _ end = _ -> _ => destruct p as [s1 e1] eqn:E1 end.
  assert (K1 : cm_map s1 = cm_map s /\ cm_spawnq s1 = cm_spawnq s /\ cm_tid s1 = cm_tid s) by (repeat (case_match; simplify_eq; try done)). destruct K1 as (K1 & K2 & K3). clear E1.
  destruct (ci_actor i) as [c|] eqn:Hc; [|done].
  assert (K4 : cm_map (cancel_init s1 c) = cm_map s /\ cm_spawnq (cancel_init s1 c) = cm_spawnq s) by (destruct (cancel_init_eq s1 c) as [x ->]; cbn; by rewrite K1, K2). destruct K4 as [K4 K5].
  set (s2 := cancel_init s1 c) in *. set (abn := match cm_children s2 !! c with Some ch => _ | None => false end). clearbody abn.
  assert (Hera : forall x, cm_map x = cm_map s2 -> cm_spawnq x = cm_spawnq s2 -> no_lost (set_map x (delete a (cm_map x)))).
  { intros x X1 X2. apply (no_lost_rel s); [done|]. intros b j Hb Hsl. right. cbn in Hb. apply lookup_delete_Some in Hb as [_ Hb]. exists j. cbn. rewrite X2, K5. split; [congruence|done]. }
  destruct (_ && _); [|intros [= <- <-]; by apply Hera].
  destruct (next_spawn i abn ask (cm_now s2)) as [i' []] eqn:En.
  - intros [= <- <-]. by apply Hera.
  - intros [= <- <-]. apply (no_lost_rel s); [done|]. intros b j Hb Hsl. cbn in Hb |- *. apply lookup_insert_Some in Hb as [[<- <-]|[_ Hb]].
    + left. apply elem_of_app. right. by apply elem_of_list_singleton.
    + right. exists j. rewrite K4 in Hb. split_and!; try done. rewrite K5. intros ?. apply elem_of_app. by left.
  - intros [= <- <-]. by apply Hera.
  - intros [= <- <-]. apply (no_lost_rel s); [done|]. intros b j Hb Hsl. cbn in Hb |- *. apply lookup_insert_Some in Hb as [[<- <-]|[_ Hb]].
    + destruct Hsl as (_ & Hx & _). cbn in Hx. lia.
    + right. exists j. rewrite K4 in Hb. split_and!; try done. by rewrite K5.
Qed.

Lemma ask_all_no_lost s : no_lost s -> no_lost (request_shutdown_all s).1.
Proof.
  intros Hn. apply (no_lost_rel s); [done|]. intros a i Hi (S1 & S2 & S3). rewrite ask_all_map, lookup_fmap in Hi. destruct (cm_map s !! a) as [j|] eqn:Hj; [|done]. cbn in Hi. injection Hi as <-.
  right. exists j. split; [done|]. destruct (ask_all_eq s) as [x ->]. split; [|done]. unfold ask_child in *. destruct (ci_actor j) eqn:Ej; [destruct (ci_shut j); cbn in *; congruence|].
  destruct (N.eqb_spec (ci_timer j) 0); [done|]. cbn in S3. done.
Qed.

Lemma cstep_no_lost s o s' e : cinv s -> (match o with OFire _ => rank (cm_state s) <= 4 | _ => True end) -> no_lost s -> step s o = Ok (s', e) -> no_lost s'.
Proof.
  intros Hv Hf Hn H. destruct o; cbn -[on_spawn on_create on_init remove_child handle_shutdown deactivate on_shutdown_confirm on_shutdown_trigger on_spawn_timer handle_start] in H.
  - injection H as <- <-. apply (no_lost_rel s); [done|]. intros b j Hb Hsl. right. cbn in Hb |- *. apply lookup_insert_Some in Hb as [[<- <-]|[_ Hb]]; [by destruct Hsl|by exists j].
  - injection H as <- <-. apply (no_lost_rel s); [done|]. intros b j Hb Hsl. cbn in Hb |- *. rewrite elem_of_app, elem_of_list_singleton. apply lookup_insert_Some in Hb as [[<- <-]|[_ Hb]]; [by left; right|].
    right. exists j. split_and!; try done. intros ?. apply elem_of_app. by left.
  - destruct (take_first a (cm_spawnq s)) as [q|] eqn:Eq; [|by injection H as <- <-]. pose proof (take_first_in _ _ _ Eq) as (Hin & _ & Hoth).
    unfold on_spawn in H. cbn in H. destruct (cm_map s !! a) as [i|] eqn:Hi; [|done].
    assert (Hq : forall b, b <> a -> b ∈ cm_spawnq s -> b ∈ q).
    { intros b Hb Hbq. clear -Eq Hb Hbq. revert q Eq. induction (cm_spawnq s) as [|x l IH]; [by apply elem_of_nil in Hbq|]. intros q Eq. cbn in Eq.
      destruct (N.eqb_spec x a) as [->|Hx]; [injection Eq as <-; apply elem_of_cons in Hbq as [?|?]; done|]. destruct (take_first a l) as [r|]; [|done]. cbn in Eq. injection Eq as <-.
      apply elem_of_cons in Hbq as [->|Hbq]; [left|right]. by apply IH. }
    assert (Hgen : forall x j, cm_spawnq x = q -> (forall b, b <> a -> cm_map x !! b = cm_map s !! b) -> cm_map x !! a = j -> (forall j', j = Some j' -> ~ slack j') -> no_lost x).
    { intros x j X1 X2 X3 X4. apply (no_lost_rel s); [done|]. intros b jb Hb Hsl. destruct (decide (b = a)) as [->|Hba]; [rewrite X3 in Hb; by destruct (X4 jb)|].
      right. rewrite X2 in Hb by done. exists jb. rewrite X1. auto. }
    destruct (ci_active i) eqn:Hac; cbn [negb] in H; cycle 1.
    { injection H as <- <-. apply (Hgen _ (Some i)); try done. intros j' [= <-] (_ & _ & ?). congruence. }
    destruct (ok && _).
    + injection H as <- <-. apply (no_lost_rel s); [done|]. intros b j Hb Hsl. right. cbn in Hb |- *. apply lookup_insert_Some in Hb as [[<- <-]|[_ Hb]]; [by destruct Hsl|].
      apply lookup_delete_Some in Hb as [Hb1 Hb2]. exists j. split_and!; try done. by apply Hq.
    + match type of H with (let '(_, _) := ?p in _) = _ => destruct p as [[s1 e1] try1] eqn:E1 | match ?p with _ => _ end = _ => destruct p as [[s1 e1] try1] eqn:E1 end.
      assert (K1 : cm_map s1 = cm_map s /\ cm_spawnq s1 = q) by (repeat (case_match; simplify_eq; try done)). destruct K1 as [K1 K2]. clear E1.
      destruct try1; injection H as <- <-.
      * eapply Hgen; [cbn; done|intros b Hb; cbn; by rewrite lookup_insert_ne, K1 by done|cbn; by rewrite lookup_insert|]. intros j' [= <-] (_ & Hx & _). cbn in Hx. lia.
      * eapply Hgen; [cbn; done|intros b Hb; cbn; by rewrite lookup_insert_ne, K1 by done|cbn; by rewrite lookup_insert|]. intros j' [= <-] (_ & _ & Hx). done.
  - destruct (take_first a (cm_createq s)) as [q|]; [|by injection H as <- <-]. unfold on_create in H. destruct (cm_map _ !! a); [|done]. injection H as <- <-. by apply (no_lost_same s).
  - destruct (bool_decide _); [|by injection H as <- <-]. unfold on_init in H. cbn in H.
    assert (Hset : forall x, no_lost (set_initreq (set_initout s (cm_initout s ∖ {[a]})) x)) by (intros x; by apply (no_lost_same s)).
    assert (Hset2 : no_lost (set_initout s (cm_initout s ∖ {[a]}))) by (by apply (no_lost_same s)).
    destruct failed.
    + destruct (_ && _).
      * destruct (cm_initreq s); [destruct (a =? 0)|]; injection H as <- <-; done.
      * destruct (cm_map s !! a) as [i|]; [destruct (ci_actor i)|]; try done; injection H as <- <-; done.
    + destruct (cm_map s !! a) as [i|] eqn:Hi; injection H as <- <-; [|done]. eapply (no_lost_put _ a i); done.
  - unfold on_shutdown_trigger in H. destruct (cm_map s !! a) as [i|] eqn:Hi; [|done]. unfold request_shutdown in H. destruct (ci_shut i); [|by injection H as <- <-..].
    destruct (ci_actor i) as [c|] eqn:Hc; [|done]. destruct (cancel_init_eq s c) as [x Hx]. rewrite Hx in H.
    assert (Hs1 : no_lost (set_initout s x)) by (by apply (no_lost_same s)). destruct (c =? 0).
    + destruct hp; [injection H as <- <-; by apply (no_lost_put _ a i)|]. destruct (bool_decide _); [injection H as <- <-; by apply (no_lost_put _ a i)|].
      pose proof (ask_all_no_lost (set_state (put_info (set_initout s x) a (i_shut i SConfirmed)) AShuttingDown)) as Hall. destruct (request_shutdown_all _) as [s3 e3]. injection H as <- <-.
      apply no_lost_put2; [|intros (Hx2 & _); cbn in Hx2; congruence]. apply Hall. eapply (no_lost_same (put_info (set_initout s x) a (i_shut i SConfirmed))); try done. by apply (no_lost_put _ a i).
    + injection H as <- <-. by apply (no_lost_put _ a i).
  - destruct (bool_decide _); [|by injection H as <- <-]. unfold on_shutdown_confirm in H. cbn in H. destruct (cm_map s !! a) as [i|] eqn:Hi; [|done]. destruct (ci_actor i) as [c|]; [|done].
    assert (Hs1 : no_lost (put_info (set_shutout s (cm_shutout s ∖ {[a]})) a (i_shut i SConfirmed))). { by apply (no_lost_put _ a i). }
    destruct subs; [injection H as <- <-; eapply no_lost_same; [exact Hs1|done|done]|].
    destruct (remove_child policy _ a ask) as [[s2 e2]| |] eqn:Er; [|done..]. cbn in H. injection H as <- <-. by apply remove_no_lost in Er.
  - destruct (bool_decide _); [|by injection H as <- <-]. apply remove_no_lost in H; [done|]. by apply (no_lost_same s).
  - by injection H as <- <-.
  - destruct (bool_decide _); [|by injection H as <- <-]. unfold handle_shutdown in H. destruct (cm_map s !! 0) as [i|] eqn:Hi; [|done].
    pose proof (ask_all_no_lost (put_info s 0 (i_shut i SConfirmed))) as Hall. destruct (request_shutdown_all _) as [s1 e1]. injection H as <- <-. apply Hall. by apply (no_lost_put _ 0 i).
  - destruct (bool_decide _); [|by injection H as <- <-]. unfold handle_start in H. destruct sync; injection H as <- <-; [|by apply (no_lost_same s)].
    apply (no_lost_rel s); [done|]. intros b j Hb Hsl. cbn in Hb. rewrite map_lookup_imap in Hb. destruct (cm_map s !! b) as [j0|] eqn:Hj0; [|done]. cbn in Hb. injection Hb as <-.
    right. exists j0. split_and!; try done. destruct (b =? 0); done.
  - destruct (cm_timers s !! id); [|by injection H as <- <-]. destruct (_ <=? _); [|by injection H as <- <-]. unfold on_spawn_timer in H.
    destruct (cm_spawning s !! id) as [key|]; [|done]. cbn in H. destruct (cm_map s !! key) as [i|] eqn:Hi; [|done]. rewrite (proj2 (N.leb_le _ _) Hf) in H. injection H as <- <-.
    apply (no_lost_rel s); [done|]. intros b j Hb Hsl. cbn in Hb |- *. rewrite elem_of_app, elem_of_list_singleton. apply lookup_insert_Some in Hb as [[<- <-]|[_ Hb]]; [by left; right|].
    right. exists j. split_and!; try done. intros ?. apply elem_of_app. by left.
  - by injection H as <- <-; apply (no_lost_same s).
  - by injection H as <- <-; apply (no_lost_same s).
  - injection H as <- <-. destruct (bool_decide _); [|done]. by apply (no_lost_same s).
  - destruct (sup_moves _ _ _); injection H as <- <-; [|done]. by apply (no_lost_same s).
  - destruct (cm_children s !! c); [|by injection H as <- <-]. destruct (decide _); injection H as <- <-; [|done]. by apply (no_lost_same s).
  - destruct (bool_decide _); [|by injection H as <- <-]. unfold deactivate in H. destruct (_ && _); [|by injection H as <- <-]. by apply remove_no_lost in H.
Qed.

(** ** Steps which make no actor *)
Definition plain_op (o : cop) : Prop :=
  match o with OCreate | OSpawn _ | OOnSpawn _ true | OState _ | OChild _ _ | OFire _ => False | _ => True end.
Definition nonew (e : list cevent) : Prop := Forall (fun x => ~ newish x) e.
Lemma nonew_in e : nonew e <-> forall x, x ∈ e -> ~ newish x.
Proof. unfold nonew. by rewrite Forall_forall. Qed.
Lemma nonew_app e1 e2 : nonew e1 -> nonew e2 -> nonew (e1 ++ e2).
Proof. intros. by apply Forall_app. Qed.
Lemma nonew_one x : ~ newish x -> nonew [x].
Proof. intros. by repeat constructor. Qed.
Lemma nonew_self s : nonew (self_shutdown s).
Proof. unfold self_shutdown. case_match; [apply nonew_one; by intros []|constructor]. Qed.
Lemma nonew_cont s : nonew (init_continue s).
Proof. unfold init_continue. case_match; [apply nonew_one; by intros []|constructor]. Qed.
Lemma nonew_all s : nonew (request_shutdown_all s).2.
Proof. apply nonew_in. intros x Hx. apply ask_events_in in Hx as [(c & a & i & -> & _)| ->]; by intros []. Qed.
Lemma remove_plain s a ask s' e : remove_child policy s a ask = Ok (s', e) -> nonew e /\ cm_state s' = cm_state s.
Proof.
  intros H. split; cycle 1. { apply (remove_eff policy) in H as (i & c & k & abn & e1 & e2 & _ & _ & -> & _ & _ & Hk & _). by apply Hk. }
  unfold remove_child in H. destruct (cm_map s !! a) as [i|]; [|done].
  match type of H with match ?p with _ => _ end = _ => assert (H1 : nonew p.2) by (clear H; repeat case_match; cbn [snd fst]; try apply nonew_self; try apply nonew_one; try constructor; by intros []); destruct p as [s1 e1] end.
  destruct (ci_actor i) as [c|]; [|done].
  match type of H with match ?p with _ => _ end = _ => assert (H2 : nonew p.1.1.2) by (clear H; repeat case_match; cbn [snd fst]; try apply nonew_one; try constructor; by intros []); destruct p as [[[s3 e3] i3] er] end.
  injection H as <- <-. cbn in H1, H2. apply nonew_app; [done|]. constructor; [by intros []|]. apply nonew_app; [done|]. apply nonew_app; [|apply nonew_cont].
  case_match; [apply nonew_one; by intros []|constructor].
Qed.
Lemma cstep_plain s o s' e : plain_op o -> cm_state s = AShuttingDown -> step s o = Ok (s', e) -> nonew e /\ cm_state s' = AShuttingDown.
Proof.
  intros Hp Hst H. destruct o; try done; cbn -[on_spawn on_create on_init remove_child handle_shutdown deactivate on_shutdown_confirm on_shutdown_trigger handle_start] in H;
    try (injection H as <- <-; split; [by repeat constructor|done]).
  - destruct ok; [done|]. destruct (take_first a (cm_spawnq s)) as [q|]; [|injection H as <- <-; split; [constructor|done]]. unfold on_spawn in H. cbn in H.
    destruct (cm_map s !! a) as [i|]; [|done]. destruct (negb _); [injection H as <- <-; split; [constructor|done]|].
    rewrite Hst in H. cbn in H. destruct (_ || _); injection H as <- <-; split; try done; by repeat constructor; intros [].
  - destruct (take_first a (cm_createq s)) as [q|]; [|injection H as <- <-; split; [constructor|done]]. unfold on_create in H. destruct (cm_map _ !! a); [|done]. injection H as <- <-.
    split; [|done]. apply nonew_one. by intros [].
  - destruct (bool_decide _); [|injection H as <- <-; split; [constructor|done]]. unfold on_init in H. cbn in H. rewrite Hst in H. cbn in H. destruct failed.
    + destruct (cm_map s !! a) as [i|]; [destruct (ci_actor i) as [c|]; [|done]|]; injection H as <- <-; (split; [|done]); [destruct (c =? 0)|]; try apply nonew_self.
      unfold child_shutdown. repeat case_match; try constructor; [by intros []|constructor].
    + destruct (cm_map s !! a) as [i|]; injection H as <- <-; (split; [|done]); [apply (nonew_app (_ :: _))|]; [constructor; [by intros []|]; case_match; by repeat constructor; intros []| |]; destruct (negb _); try constructor; apply nonew_cont.
  - unfold on_shutdown_trigger in H. destruct (cm_map s !! a) as [i|]; [|done]. unfold request_shutdown in H. destruct (ci_shut i); [|injection H as <- <-; split; [constructor|done]..].
    destruct (ci_actor i) as [c|]; [|done]. destruct (cancel_init_eq s c) as [x Hx]. rewrite Hx in H. destruct (c =? 0).
    + destruct hp; [injection H as <- <-; split; [apply nonew_self|done]|]. cbn in H. rewrite Hst in H. cbn in H. injection H as <- <-. split; [constructor|done].
    + injection H as <- <-. split; [|done]. apply nonew_one. by intros [].
  - destruct (bool_decide _); [|injection H as <- <-; split; [constructor|done]]. unfold on_shutdown_confirm in H. cbn in H. destruct (cm_map s !! a) as [i|]; [|done]. destruct (ci_actor i) as [c|]; [|done].
    assert (Ho : forall t, nonew (on_child_shutdown t a)) by (clear H; intros t; unfold on_child_shutdown; case_match; [apply nonew_one; by intros []|constructor]).
    destruct subs; [injection H as <- <-; split; [apply Ho|done]|]. destruct (remove_child policy _ a ask) as [[s2 e2]| |] eqn:Er; [|done..]. cbn in H. injection H as <- <-.
    apply remove_plain in Er as [E1 E2]. split; [by apply nonew_app|by rewrite E2].
  - destruct (bool_decide _); [|injection H as <- <-; split; [constructor|done]]. apply remove_plain in H as [E1 E2]. by rewrite E2.
  - injection H as <- <-. split; [|done]. apply nonew_one. by intros [].
  - destruct (bool_decide _); [|injection H as <- <-; split; [constructor|done]]. unfold handle_shutdown in H. destruct (cm_map s !! 0) as [i|]; [|done].
    pose proof (nonew_all (put_info s 0 (i_shut i SConfirmed))) as Hn. pose proof (ask_all_eq (put_info s 0 (i_shut i SConfirmed))) as [x Hx].
    destruct (request_shutdown_all _) as [s1 e1]. injection H as <- <-. cbn in Hn, Hx. split; [apply nonew_app; [done|apply nonew_one; by intros []]|]. by injection Hx as -> _.
  - rewrite Hst in H. cbn in H. injection H as <- <-. split; [constructor|done].
  - injection H as <- <-. rewrite Hst. cbn. split; [constructor|done].
  - destruct (bool_decide _); [|injection H as <- <-; split; [constructor|done]]. unfold deactivate in H. destruct (_ && _); [|injection H as <- <-; split; [constructor|done]].
    apply remove_plain in H as [E1 E2]. by rewrite E2.
Qed.
End cm.

Section fam.
Context (hp : bool) (policy : spolicy) (sync : bool).
Notation step := (cstep hp policy sync).
Notation manage := (FamilyModel.manage hp policy sync).
Notation manage0 := (FamilyModel.manage0 hp policy sync).
Notation fstep := (fstep hp policy sync).

(** ** What an operation of the family is for the child manager *)
Definition fits (o : fop) (co : cop) : Prop :=
  match co with
  | OCreate => exists x y, o = FCreate x y
  | OSpawn cfg => o = FSpawn cfg
  | OOnSpawn _ ok => exists x1 x2 x3 x4 x5 x6, o = FDeliver ok x1 x2 x3 x4 x5 x6
  | OFire id => o = FFire id
  | OState st => o = FInitialized \/ o = FParentShutdown \/ o = FShutDown
  | OVoteShutdown => o = FVote
  | OChild _ _ => False
  | _ => True
  end.
Lemma manage_cm fo ea s co s' e : manage fo ea s co = Ok (s', e) -> step (f_cm s) co = Ok (f_cm s', e).
Proof.
  unfold FamilyModel.manage. destruct (step (f_cm s) co) as [[cm e1]| |]; [|done..]. cbn. intros [= <- <-]. cbn. by rewrite fold_cm.
Qed.
Definition by_cm (s : fstate) (o : fop) (s' : fstate) (e : list cevent) : Prop :=
  (exists M, f_cm s' = set_children (f_cm s) M /\ e = []) \/ (exists x co, step (set_initout (f_cm s) x) co = Ok (f_cm s', e) /\ fits o co).
Lemma by_manage fo ea s o co s' e : manage fo ea s co = Ok (s', e) -> fits o co -> by_cm s o s' e.
Proof. intros H Hf. right. exists (cm_initout (f_cm s)), co. split; [|done]. apply manage_cm in H. by destruct (f_cm s). Qed.
Lemma by_same s o s' : f_cm s' = f_cm s -> by_cm s o s' [].
Proof. intros E. left. exists (cm_children (f_cm s)). rewrite E. by destruct (f_cm s). Qed.
Lemma handles_cm s c m abn esc : exists M, f_cm (child_handles s c m abn esc) = set_children (f_cm s) M.
Proof.
  assert (Hs : exists M, f_cm s = set_children (f_cm s) M) by (exists (cm_children (f_cm s)); by destruct (f_cm s)).
  unfold child_handles. destruct (decide _); [done|]. destruct (cm_children (f_cm s) !! c); [|done]. destruct m; try done; [by eexists|].
  unfold own, from. destruct esc; repeat destruct (decide _); by eexists.
Qed.
Lemma from_cm s c l : f_cm (from s c l) = f_cm s.
Proof. unfold from. by destruct (decide _). Qed.
Lemma to_child_cm s c m abn esc : exists M, f_cm (to_child s c m abn esc) = set_children (f_cm s) M.
Proof. unfold to_child. destruct (decide _); [|apply handles_cm]. exists (cm_children (f_cm s)). cbn. by destruct (f_cm s). Qed.
Lemma fstep_cases s o s' e : fstep s o = Ok (s', e) -> by_cm s o s' e.
Proof.
  intros H. assert (Hs : forall t, by_cm s o t e -> True) by done.
  destruct o; cbn [FamilyModel.fstep] in H; unfold FamilyModel.manage0 in H.
  - eapply by_manage; [done|by eexists _, _].
  - by eapply by_manage.
  - destruct (a =? 0); [injection H as <- <-; apply by_same; by destruct (_ && _)|].
    destruct (cm_children (f_cm s) !! a); injection H as <- <-; apply by_same; [|done]. destruct (_ <? _); [apply from_cm|done].
  - destruct (f_q s) as [|m q]; [injection H as <- <-; by apply by_same|]. unfold deliver, FamilyModel.manage0 in H.
    assert (Hm : forall fo ea t co, f_cm t = f_cm s -> manage fo ea t co = Ok (s', e) -> fits (FDeliver ok foreign early subs ask abn esc) co -> by_cm s (FDeliver ok foreign early subs ask abn esc) s' e).
    { intros fo ea t co Ht H1 H2. eapply by_manage in H1; [|done]. unfold by_cm in *. by rewrite Ht in H1. }
    assert (Hcf : forall t c, f_cm t = f_cm s -> confirm hp policy sync t c subs ask = Ok (s', e) -> by_cm s (FDeliver ok foreign early subs ask abn esc) s' e).
    { intros t c Ht. unfold confirm, FamilyModel.manage0. destruct (manage false false t _) as [[s1 e1]| |] eqn:E1; [|done..]. cbn. intros [= <- <-].
      eapply by_manage in E1; [|done]. unfold by_cm in *. rewrite Ht in E1. by destruct subs. }
    assert (Htc : forall c m', Ok (to_child (set_q s q) c m' abn esc, []) = Ok (s', e) -> by_cm s (FDeliver ok foreign early subs ask abn esc) s' e).
    { intros c m' [= <- <-]. left. destruct (to_child_cm (set_q s q) c m' abn esc) as [M HM]. by exists M. }
    destruct m; try (destruct (decide (0 ∈ f_bye _)); [injection H as <- <-; by apply by_same|]).
    + (eapply Hm; [|exact H|]; done).
    + eapply Hm; [| exact H |by eexists _, _, _, _, _, _]. done.
    + destruct (c =? 0); [|by eapply Htc]. destruct (decide _); [injection H as <- <-; by apply by_same|]. (eapply Hm; [|exact H|]; done).
    + destruct (decide _); [|injection H as <- <-; by apply by_same]. (eapply Hm; [|exact H|]; done).
    + apply manage_cm in H. right. eexists _, _. split; [exact H|done].
    + (eapply Hm; [|exact H|]; done).
    + by eapply Htc.
    + destruct (decide _); [|injection H as <- <-; by apply by_same]. by eapply Hcf; [|exact H].
    + by eapply Hcf; [|exact H].
    + (eapply Hm; [|exact H|]; done).
    + destruct (c =? 0); [injection H as <- <-; by apply by_same|by eapply Htc].
  - destruct (downl s c) as [|m l]; injection H as <- <-; [by apply by_same|]. left. destruct (handles_cm (set_down s (<[c := l]> (f_down s))) c m abn esc) as [M HM]. by exists M.
  - destruct (upl s c) as [|m l]; injection H as <- <-; by apply by_same.
  - destruct (child_ready s c AInitializing) as [ch|]; [|injection H as <- <-; by apply by_same]. destruct (ch_initreq ch); injection H as <- <-; [|by apply by_same].
    left. rewrite from_cm. by eexists.
  - destruct (child_ready s c AInitialized) as [ch|]; injection H as <- <-; [|by apply by_same]. left. by eexists.
  - destruct (child_ready s c AShuttingDown) as [ch|]; [|injection H as <- <-; by apply by_same]. destruct (decide _); injection H as <- <-; [|by apply by_same].
    left. rewrite from_cm. by eexists.
  - injection H as <- <-. apply by_same. by destruct (decide _).
  - injection H as <- <-. apply by_same. by destruct (decide _).
  - by eapply by_manage.
  - by eapply by_manage.
  - by eapply by_manage.
  - destruct (_ && _); [|injection H as <- <-; by apply by_same]. destruct (manage false false s _) as [[s1 e1]| |] eqn:E1; [|done..]. cbn in H. injection H as <- <-.
    eapply by_manage in E1; [|left; done]. by destruct hp.
  - by eapply by_manage.
  - destruct hp eqn:Eh; [|injection H as <- <-; by apply by_same]. rewrite <- Eh in *. by eapply by_manage.
  - destruct hp eqn:Eh; [|injection H as <- <-; by apply by_same]. rewrite <- Eh in *. eapply by_manage; [done|]. right; by left.
  - destruct (bool_decide _); [|injection H as <- <-; by apply by_same]. by eapply by_manage.
  - destruct (bool_decide _); [|injection H as <- <-; by apply by_same]. destruct (manage false false _ _) as [[s1 e1]| |] eqn:E1; [|done..]. cbn in H. injection H as <- <-.
    eapply by_manage with (o := FDeactivate mapping_empty ask) in E1; [|done]. by destruct mapping_empty.
  - injection H as <- <-. apply by_same. by destruct (bool_decide _).
  - eapply by_manage; [done|]. right; by right.
Qed.

Lemma lost_fstep s o s' e a : cinv (f_cm s) -> 5 <= rank (cm_state (f_cm s)) -> lost (f_cm s) a -> fstep s o = Ok (s', e) ->
  cinv (f_cm s') /\ 5 <= rank (cm_state (f_cm s')) /\ lost (f_cm s') a.
Proof.
  intros Hv Hr Hl H. apply fstep_cases in H as [(M & -> & ->)|(x & co & H & _)].
  - split; [by apply FlowProofs.cinv_children|done].
  - assert (Hv' : cinv (set_initout (f_cm s) x)) by (by apply FlowProofs.cinv_initout).
    assert (Hms := step_moves hp policy sync False _ _ _ _ Hv' ltac:(done) H). split_and!; [by eapply cinv_moves|by eapply moves_rank|by eapply lost_moves].
Qed.
Lemma no_lost_fstep s o s' e : cinv (f_cm s) -> punctual s o -> no_lost (f_cm s) -> fstep s o = Ok (s', e) -> cinv (f_cm s') /\ no_lost (f_cm s').
Proof.
  intros Hv Hp Hl H. apply fstep_cases in H as [(M & -> & ->)|(x & co & H & Hf)].
  - split; [by apply FlowProofs.cinv_children|]. by apply (no_lost_same (f_cm s)).
  - assert (Hv' : cinv (set_initout (f_cm s) x)) by (by apply FlowProofs.cinv_initout).
    assert (Hms := step_moves hp policy sync False _ _ _ _ Hv' ltac:(done) H). split; [by eapply cinv_moves|].
    eapply cstep_no_lost; [exact Hv'| | |exact H]; [|by apply (no_lost_same (f_cm s))]. destruct co; try done. cbn in Hf. by subst o.
Qed.
End fam.
