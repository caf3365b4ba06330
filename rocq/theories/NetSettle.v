(** What keeps an actor from shutting down. *)
From stdpp Require Import base list gmap.
From Verif Require Import Base Prog ActorModel ActorSpec ActorMoves ActorReach ActorProofs ActorSafeSpec ActorSafe ActorSafeRun ActorSteps NetModel NetSpec NetLocal NetViews NetSteps.
Open Scope N_scope.
Local Open Scope prog_scope.

(** An actor which shuts down, holds nothing and whose registry plugin has agreed (or had
    no promise to cancel) waits for clients, all of which are told (or wait themselves), or for its subscriptions. *)
Definition no_op (s : astore) : Prop := forall c, x_cl s !! c <> Some COperational.
Definition stuck (s : astore) : Prop := x_d s PRg = false /\ (x_cl s <> ∅ /\ no_op s \/ x_cl s = ∅ /\ x_sv s = ∅ /\ x_pts s = true).
Definition uncancelled (ev : list aev) : Prop := forall d, EvCancel d ∉ ev.
Definition settled_down (s : astore) (ev : list aev) : Prop := x_st s = AShuttingDown -> has_any s = false -> uncancelled ev \/ x_d s PRg = false -> stuck s.
(** A plugin which has agreed has nothing left. *)
Definition agreed (s : astore) : Prop := (x_d s PLc = false -> x_sv s = ∅) /\ (x_d s PLs = false -> x_cl s = ∅).
(** What the shutdown of the links does not change. *)
Definition alike (s s' : astore) : Prop := x_st s' = x_st s /\ x_d s' = x_d s /\ x_res s' = x_res s /\ x_dm s' = x_dm s /\ x_pts s' = x_pts s.
Lemma alike_refl s : alike s s.
Proof. done. Qed.
Lemma alike_trans s1 s2 s3 : alike s1 s2 -> alike s2 s3 -> alike s1 s3.
Proof. intros (A1 & A2 & A3 & A4 & A5) (B1 & B2 & B3 & B4 & B5). split_and!; congruence. Qed.

Definition same_keys {V W} (m : gmap N V) (m' : gmap N W) : Prop := forall k, is_Some (m' !! k) <-> is_Some (m !! k).
Lemma same_empty {V} (m m' : gmap N V) : same_keys m m' -> m' = ∅ <-> m = ∅.
Proof.
  intros H. rewrite !map_empty. split; intros E k; apply eq_None_not_Some; [rewrite <- (H k)|rewrite (H k)]; rewrite E; by intros [? ?].
Qed.

Section down.
Context (unl : bool).
Lemma notify_settles s ev : wp false notify_shutdown (fun _ s' _ => alike s s' /\ x_sv s' = x_sv s /\ same_keys (x_cl s) (x_cl s') /\ no_op s') s ev.
Proof.
  unfold notify_shutdown. wps.
  apply (wp_each_list false _ _ (fun r s' _ => todo r (x_cl s') /\ (alike s s' /\ x_sv s' = x_sv s /\ same_keys (x_cl s) (x_cl s')) /\ forall c, x_cl s' !! c = Some COperational -> (c, COperational) ∈ r) (fun _ s' _ => alike s s' /\ x_sv s' = x_sv s /\ same_keys (x_cl s) (x_cl s') /\ no_op s')).
  - intros [c x] r s1 ev1 (HT & (HA & Hs & Hk) & H1). pose proof (todo_here _ _ _ _ HT) as Hc. unfold notify_client, request. destruct x as [q| |id]; wps.
    + split; [by eapply todo_next|]. split; [done|]. intros c' Hc'. specialize (H1 _ Hc'). apply elem_of_cons in H1 as [?|?]; [congruence|done].
    + split; [eapply todo_next; [exact HT|]; intros k Hn; cbn; by rewrite lookup_insert_ne|]. split; [split_and!; [done..|]|].
      * intros k. rewrite <- (Hk k). cbn. destruct (decide (k = c)) as [->|Hn]; [rewrite lookup_insert, Hc; by split; intros _; eexists|by rewrite lookup_insert_ne].
      * cbn. intros c' [[? ?]|[Hn Hc']]%lookup_insert_Some; [congruence|]. specialize (H1 _ Hc'). apply elem_of_cons in H1 as [?|?]; [congruence|done].
    + split; [by eapply todo_next|]. split; [done|]. intros c' Hc'. specialize (H1 _ Hc'). apply elem_of_cons in H1 as [?|?]; [congruence|done].
  - split; [apply todo_init|]. split; [split_and!; done|]. intros c Hc. by apply elem_of_map_to_list.
  - intros s1 ev1 (_ & (HA & Hs & Hk) & H1). split_and!; try done. intros c Hc'. apply H1 in Hc'. by apply elem_of_nil in Hc'.
Qed.
Lemma forget_all_settles l s ev : wp false (forget_all unl l) (fun _ s' _ => alike s s' /\ x_cl s' = x_cl s /\ forall a, x_sv s' !! a = if decide (a ∈ l) then None else x_sv s !! a) s ev.
Proof.
  revert s ev. induction l as [|a l IH]; intros s ev; cbn [forget_all]; unfold forget_one; wps.
  { split_and!; done. }
  destruct (x_sv s !! a) as [x|] eqn:Ha; wps; (wp_use (apply IH)); intros b s1 ev1 (HA & Hc & Hs); wps; (split_and!; [done|done|]); intros c; rewrite Hs; cbn; clear Hs.
  - destruct (decide (c = a)) as [->|Hn].
    + rewrite lookup_delete, (decide_True (P := a ∈ a :: l)) by by left. by case_decide.
    + rewrite lookup_delete_ne by done. repeat case_decide; try done; set_solver.
  - destruct (decide (c = a)) as [->|Hn].
    + rewrite (decide_True (P := a ∈ a :: l)), Ha by by left. by case_decide.
    + repeat case_decide; try done; set_solver.
Qed.
Lemma forget_links_settles s ev : wp false (forget_links unl) (fun _ s' _ => alike s s' /\ x_cl s' = x_cl s /\
  (x_cl s <> ∅ -> x_sv s' = x_sv s) /\ (x_cl s = ∅ -> forall a, x_sv s' !! a = if decide (a ∈ x_uq s) then None else x_sv s !! a)) s ev.
Proof.
  unfold forget_links. wps.
  - apply bool_decide_eq_true in Heqb. wp_use (apply forget_all_settles). intros b s1 ev1 (? & ? & ?). split_and!; done.
  - apply bool_decide_eq_false in Heqb. done.
Qed.
Lemma client_settles s ev : wp false (client_shutdown unl) (fun b s' _ => alike s s' /\ (x_cl s = ∅ -> x_cl s' = ∅) /\ if b : bool then x_sv s' = ∅ else x_cl s' <> ∅ /\ no_op s') s ev.
Proof.
  unfold client_shutdown. wps.
  { apply bool_decide_eq_true in Heqb. done. }
  wp_use (apply forget_links_settles). intros b s1 ev1 (HA & Hc & Hs & _). wps.
  - apply bool_decide_eq_true in Heqb0. eapply wp_call.
    + apply (wp_each_list false _ _ (fun r s' _ => alike s s' /\ x_cl s' = ∅ /\ todo r (x_sv s') /\ forall a, is_Some (x_sv s' !! a) -> exists x, (a, x) ∈ r) (fun _ s' _ => alike s s' /\ x_cl s' = ∅ /\ x_sv s' = ∅)).
      * intros [a x] r s2 ev2 (HA2 & Hc2 & HT & Hr). unfold leave_server, discard_request.
        assert (HF : forall s3, alike s s3 -> x_cl s3 = ∅ -> x_sv s3 = x_sv s2 -> alike s (w_sv s3 (delete a (x_sv s3))) /\ x_cl (w_sv s3 (delete a (x_sv s3))) = ∅ /\ todo r (delete a (x_sv s3)) /\ forall a0, is_Some (delete a (x_sv s3) !! a0) -> exists x, (a0, x) ∈ r).
        { intros s3 A3 C3 V3. split_and!; [done|done|rewrite V3; eapply todo_next; [exact HT|]; intros k Hk; by rewrite lookup_delete_ne|].
          intros a0 [y [Hn Hy]%lookup_delete_Some]. rewrite V3 in Hy. destruct (Hr a0) as [z Hz]; [by eexists|]. apply elem_of_cons in Hz as [[= -> ->]|Hz]; [done|eauto]. }
        wps. destruct (sr_st x); wps; by apply HF.
      * split_and!; [done|done|apply todo_init|]. intros a [x Hx]. exists x. by apply elem_of_map_to_list.
      * intros s2 ev2 (HA2 & Hc2 & _ & Hr). split_and!; [done|done|]. apply map_empty. intros a. apply eq_None_not_Some. intros [x Hx]%Hr. by apply elem_of_nil in Hx.
    + intros _ s2 ev2 (HA2 & Hc2 & Hs2). wps. split_and!; [done|done|]. by rewrite bool_decide_true.
  - apply bool_decide_eq_false in Heqb, Heqb0. wp_use (apply notify_settles). intros _ s2 ev2 (HA2 & Hs2 & Hk & Hn). wps. apply same_empty in Hk.
    split_and!; [by eapply alike_trans|intros E; rewrite Hc in Heqb0; done|]. rewrite bool_decide_false; [split; [by rewrite Hk|done]|]. rewrite Hs2, Hs; [done|by rewrite <- Hc].
Qed.
Lemma registry_settles s ev : wp false registry_shutdown (fun b s' ev' => (x_st s' = x_st s /\ x_d s' = x_d s /\ x_res s' = x_res s /\ x_cl s' = x_cl s /\ x_sv s' = x_sv s /\ x_pts s' = x_pts s) /\ (b = false -> ~ uncancelled ev')) s ev.
Proof.
  set (F := fun s' : astore => x_st s' = x_st s /\ x_d s' = x_d s /\ x_res s' = x_res s /\ x_cl s' = x_cl s /\ x_sv s' = x_sv s /\ x_pts s' = x_pts s).
  unfold registry_shutdown. wps. wp_use (apply (wp_each false _ _ (fun s' _ => F s')); [intros [n x] s1 ev1 _ H1; wps; done|done]). intros _ s1 ev1 H1. wps.
  set (K := fun (r : list (N * task)) (s' : astore) (ev' : list aev) => ~ uncancelled ev' \/ forall n, is_Some (x_dm s' !! n) -> exists t, (n, t) ∈ r).
  eapply wp_call.
  - apply (wp_each_list false _ _ (fun r s' ev' => F s' /\ K r s' ev') (fun _ s' ev' => F s' /\ K [] s' ev')); [|split; [done|]|done].
    + intros [n x] r s2 ev2 [H2 HK]. unfold cancel_task. wps; (split; [done|]).
      * left. intros HU. apply (HU n). apply elem_of_app. right. by left.
      * destruct HK as [HK|HK]; [by left|]. right. cbn. intros k [y [Hk Hy]%lookup_delete_Some]. destruct (HK k) as [t [[= -> ->]|Ht]%elem_of_cons]; [by eexists|done|by exists t].
    + right. cbn. intros n [y Hy]. exists y. by apply elem_of_map_to_list.
  - cbv beta. intros _ s2 ev2 [H2 HK]. wps; [done|]. split; [done|]. intros _. apply bool_decide_eq_false in Heqb. destruct HK as [HK|HK]; [done|]. destruct Heqb. apply map_empty. intros n. apply eq_None_not_Some. intros [t Ht]%HK. by apply elem_of_nil in Ht.
Qed.
Lemma continue_settles s ev : agreed s -> x_st s = AShuttingDown -> wp false (shutdown_continue unl) (fun _ s' ev' => settled_down s' ev') s ev.
Proof.
  intros [G1 G2] Hst. unfold shutdown_continue, shutdown_order. wps. clear H.
  assert (Hd : forall s ev, wp false (shutdown_finish) (fun _ s' ev' => settled_down s' ev') s ev).
  { clear. intros s ev. unfold shutdown_finish, set_state. wps; intros ?; done. }
  (* the last two plugins *)
  assert (H5 : forall s ev, x_d s PRg = false -> x_cl s = ∅ -> x_sv s = ∅ -> wp false (shutdown_loop unl [PLife]) (fun _ s' ev' => settled_down s' ev') s ev).
  { intros s1 ev1 E0 E1 E2. cbn [shutdown_loop handle_shutdown]. unfold reaction_down. wps; [apply Hd| |apply Hd]. intros _ _ _. split; [done|]. right. split_and!; try done. by apply negb_false_iff in Heqb0. }
  assert (H4 : forall s ev, x_d s PRg = false -> agreed s -> x_sv s = ∅ -> wp false (shutdown_loop unl [PLs; PLife]) (fun _ s' ev' => settled_down s' ev') s ev).
  { intros s1 ev1 E0 [A1 A2] E2. change (shutdown_loop unl [PLs; PLife]) with (s <- get ;; if x_d s PLs then b <- handle_shutdown unl PLs ;; emit (EvShutVote PLs b) ;; (if b : bool then reaction_down PLs false ;; shutdown_loop unl [PLife] else skip) else shutdown_loop unl [PLife]).
    cbn [handle_shutdown]. unfold reaction_down. wps; [|apply (H5 s1 ev1); auto]. wp_use (apply notify_settles). intros _ s2 ev2 (B1 & B2 & B3 & B4). wps.
    - pose proof B1 as (_ & B1' & _). apply H5; cbn; [by rewrite updp_ne, B1' by done|by apply bool_decide_eq_true in Heqb0|congruence].
    - intros _ _ _. split; [destruct B1 as (_ & B1 & _); by rewrite <- E0, <- B1|]. left. apply bool_decide_eq_false in Heqb0. done. }
  assert (H3 : forall s ev, x_d s PRg = false -> agreed s -> wp false (shutdown_loop unl [PLc; PLs; PLife]) (fun _ s' ev' => settled_down s' ev') s ev).
  { intros s1 ev1 E0 [A1 A2]. change (shutdown_loop unl [PLc; PLs; PLife]) with (s <- get ;; if x_d s PLc then b <- handle_shutdown unl PLc ;; emit (EvShutVote PLc b) ;; (if b : bool then reaction_down PLc false ;; shutdown_loop unl [PLs; PLife] else skip) else shutdown_loop unl [PLs; PLife]).
    cbn [handle_shutdown]. unfold reaction_down. wps; [|apply (H4 s1 ev1); [done|split; auto|auto]]. wp_use (apply client_settles). intros b s2 ev2 ((_ & B2 & _) & B3 & B4). wps.
    - apply H4; [cbn; by rewrite updp_ne, B2 by done| |done]. split; cbn; [done|]. rewrite updp_ne by done. rewrite B2. auto.
    - intros _ _ _. split; [by rewrite <- E0, <- B2|]. by left. }
  assert (H2 : forall s ev, agreed s -> wp false (shutdown_loop unl [PRg; PLc; PLs; PLife]) (fun _ s' ev' => settled_down s' ev') s ev).
  { intros s1 ev1 [A1 A2]. change (shutdown_loop unl [PRg; PLc; PLs; PLife]) with (s <- get ;; if x_d s PRg then b <- handle_shutdown unl PRg ;; emit (EvShutVote PRg b) ;; (if b : bool then reaction_down PRg false ;; shutdown_loop unl [PLc; PLs; PLife] else skip) else shutdown_loop unl [PLc; PLs; PLife]).
    cbn [handle_shutdown]. unfold reaction_down. wps; [|apply (H3 s1 ev1); [done|split; auto]]. wp_use (apply registry_settles). intros b s2 ev2 ((_ & B2 & _ & B4 & B5 & _) & B7). wps.
    - apply H3; [cbn; by rewrite updp_eq|]. split; cbn; rewrite updp_ne by done; rewrite B2, ?B4, ?B5; auto.
    - intros _ _ [HU|HU]; [|congruence]. destruct B7; [done|]. intros d Hc. apply (HU d). apply elem_of_app. by left. }
  change (shutdown_loop unl [PRs; PRg; PLc; PLs; PLife]) with (s <- get ;; if x_d s PRs then b <- handle_shutdown unl PRs ;; emit (EvShutVote PRs b) ;; (if b : bool then reaction_down PRs false ;; shutdown_loop unl [PRg; PLc; PLs; PLife] else skip) else shutdown_loop unl [PRg; PLc; PLs; PLife]).
  cbn [handle_shutdown]. unfold reaction_down. wps; [| |apply H2; split; auto].
  - apply H2. split; cbn; rewrite updp_ne by done; auto.
  - intros _ Hr. apply negb_false_iff in Heqb0. congruence.
Qed.
End down.

Section op.
Context (cfg : plug -> list uact) (ra : N) (unl : bool).
(** What the answer to a link request changes. *)
Definition beside (s s' : astore) : Prop :=
  x_st s' = x_st s /\ x_ireq s' = x_ireq s /\ x_res s' = x_res s /\ x_cl s' = x_cl s /\ x_pts s' = x_pts s /\ x_d s' = x_d s.
Lemma on_link_beside ok s ev : wp false (on_link ok) (fun _ s' _ => beside s s') s ev.
Proof.
  unfold on_link. wps; [|done].
  wp_use (apply (wp_each false _ _ (fun s' _ => beside s s')); [intros [n x] s1 ev1 _ H1; unfold request; wps; done|done]).
  intros _ s1 ev1 H1. wps.
  wp_use (apply (wp_each false _ _ (fun s' _ => beside s s')); [intros [n x] s2 ev2 _ H2; unfold do_discover, request; wps; done|done]).
  done.
Qed.
Lemma state_of_down tr e : state_of (tr ++ e) = AShuttingDown -> state_of tr = AShuttingDown \/ exists b, EvState b AShuttingDown ∈ e.
Proof.
  unfold state_of. rewrite foldl_app. generalize (foldl (fun s x => match x with EvState _ n => n | _ => s end) AInitializing tr).
  induction e as [|x e IH]; intros st H; [by left|]. cbn in H. apply IH in H as [H|(b & H)]; [|right; exists b; by right].
  destruct x; try (by left). right. eexists. rewrite <- H. by left.
Qed.
Ltac sub := intros ? ?; repeat (apply elem_of_app; left); assumption.
Lemma wp_sub {S E A} (m : prog S E A) s ev : wp false m (fun _ _ ev' => forall x, x ∈ ev -> x ∈ ev') s ev.
Proof. unfold wp. destruct (m s) as [[[s1 e1] a]| |]; [|done..]. intros x Hx. apply elem_of_app. by left. Qed.
Lemma same_stuck s s' ev ev' : x_st s' = x_st s -> x_res s' = x_res s -> x_cl s' = x_cl s -> x_pts s' = x_pts s -> (x_sv s' = x_sv s \/ x_sv s <> ∅) -> x_d s' = x_d s -> (forall x, x ∈ ev -> x ∈ ev') -> settled_down s ev -> settled_down s' ev'.
Proof.
  intros E1 E2 E3 E4 E6 E5 E7 HS. unfold settled_down, has_any, stuck, no_op. rewrite E1, E2, E3, E4, E5. intros H1 H2 H3.
  assert (H4 : uncancelled ev \/ x_d s PRg = false) by (destruct H3 as [H3|H3]; [left; intros d Hd; by apply (H3 d), E7|by right]).
  destruct (HS H1 H2 H4) as [F0 [?|(F1 & F2 & F3)]]; (split; [done|]); [by left|]. destruct E6 as [-> |?]; [by right|done].
Qed.
Lemma settle_down o s ev : agreed s -> x_st s = AShuttingDown -> x_prog s = false -> (forall q, q ∈ x_late s -> link_query q = false) -> settled_down s ev -> lrule o s ->
  wp false (aprog cfg ra unl o) (fun _ s' ev' => settled_down s' ev') s ev.
Proof.
  intros HA Hst Hp HL HS Hl.
  assert (HK : forall s' ev', x_st s' = x_st s -> x_res s' = x_res s -> x_cl s' = x_cl s -> x_pts s' = x_pts s -> x_sv s' = x_sv s -> x_d s' = x_d s -> (forall x, x ∈ ev -> x ∈ ev') -> settled_down s' ev').
  { intros s' ev' E1 E2 E3 E4 E5 E6 E7. eapply (same_stuck s); eauto. }
  assert (Hirr : forall s', agreed s' -> x_st s' = AShuttingDown -> forall ev, wp false (shutdown_continue unl) (fun _ s' ev' => settled_down s' ev') s' ev) by (intros; by apply continue_settles).
  assert (Hi : forall q, may_answer s q -> linkq q = true \/ exists c, q = QUnlink c).
  { intros [] HM; cbn in HM; unfold in_init in HM; rewrite ?Hst in HM; [by left|by destruct HM..|right; by eexists]. }
  assert (Hcl : forall c s', x_st s' = AShuttingDown -> x_d s' = x_d s -> x_sv s' = x_sv s -> x_cl s' = delete c (x_cl s) -> agreed s').
  { intros c s' _ E1 E2 E3. split; rewrite E1, ?E2, ?E3; [apply HA|]. intros ->%HA. apply delete_empty. }
  assert (Hlk : forall s' a ok, s' = w_pend s (x_pend s') -> may_answer s (QLink a) -> wp false (on_link_response cfg ra unl a ok) (fun _ s' ev' => settled_down s' ev') s' ev).
  { intros s0 a ok E0 [HM1 HM2]. assert (B0 : beside s s0 /\ x_sv s0 = x_sv s) by (rewrite E0; done). destruct B0 as [B0 V0]. clear E0.
    assert (Hir : x_ireq s = false) by (destruct (x_ireq s); [rewrite HM1 in Hst by done; done|done]).
    unfold on_link_response. wps. rewrite V0. destruct (x_sv s !! a) as [x|] eqn:Ha; [|by wps].
    assert (Hne : x_sv s <> ∅) by (intros E; by rewrite E in Ha).
    assert (HF : forall s' ev', beside s s' -> (forall x, x ∈ ev -> x ∈ ev') -> settled_down s' ev').
    { intros s' ev' (B1 & B2 & B3 & B4 & B5 & B7) B6. eapply same_stuck; [exact B1|exact B3|exact B4|exact B5|by right|exact B7|exact B6|done]. }
    assert (HCB : forall s1 ev1, beside s s1 -> wp false (call_back cfg ra unl (sr_cb x) ok) (fun _ s' _ => beside s s') s1 ev1).
    { intros s1 ev1 (B1 & B2 & B3 & B4 & B5 & B6). destruct x as [[| |n] st]; cbn [call_back sr_cb]; [by wps|..|destruct HM2; congruence].
      wp_use (apply on_link_beside). intros _ s2 ev2 (C1 & C2 & C3 & C4 & C5 & C6). split_and!; congruence. }
    apply wp_call with (R := fun _ s' ev' => beside s s' /\ forall x, x ∈ ev -> x ∈ ev'). { wps; (split; [done|sub]). }
    intros _ s1 ev1 [B1 S1]. eapply wp_call; [apply wp_and; [by apply HCB|apply wp_sub]|]. cbv beta. intros u2 s2 ev2 [B2 S2]. pose proof B2 as (_ & Hi2 & _).
    assert (S3 : forall x, x ∈ ev -> x ∈ ev2) by auto. wps.
    all: try (congruence).
    all: apply HF; [done|]. all: intros y Hy; rewrite ?elem_of_app; auto. }
  unfold aprog. wps; [done|]. destruct o; cbn [astep_live]; cbn in Hl; wps; try (apply HK; [reflexivity..|sub]).
  - apply bool_decide_eq_true in H. cbn in H. congruence.
  - unfold user. destruct u; cbn [act]; cbn in Hl; rewrite ?Hst in Hl; try (exfalso; apply (N.lt_irrefl (rank AShuttingDown)), Hl; tauto).
    + assert (HF : forall s' ev', x_res s' = <[i:=held s i + 1]> (x_res s) -> settled_down s' ev').
      { intros s' ev' E _ Hn _. unfold has_any in Hn. apply bool_decide_eq_false in Hn. destruct Hn. rewrite E. exists i, (held s i + 1). split; [apply lookup_insert|lia]. }
      unfold acquire, reaction_init, reaction_down. wps; first [done|by apply HF].
    + unfold release, resume. wps.
      * cbn. rewrite Hst. apply Hirr; done.
      * cbn [x_prog w_res] in H0. rewrite Hp, andb_true_r in H0. apply negb_false_iff in H0. intros _ Hn _. congruence.
    + wps; [done|]. apply HK; [reflexivity..|sub].
  - destruct (x_pend s !! id) as [q|]; wps; [|done]. destruct Hl as [Hm Hr]. destruct q as [a|n|n|c]; [by apply Hlk|by destruct (Hi _ Hm) as [?|[? ?]]..|].
    cbn [respond]. unfold on_unlink_response, down_resume. destruct r; [wps|by destruct Hr as [?|[?|?]]|wps]; try done.
    all: first [apply Hirr; [by apply (Hcl c)|done]|apply bool_decide_eq_false in H1; cbn in H1; congruence].
  - destruct (x_pend s !! id) as [q|]; wps; [apply HK; [reflexivity..|sub]|done].
  - destruct (x_late s) as [|q l] eqn:El; wps; [done|]. specialize (HL q ltac:(by left)). apply Hi in Hl as [Hl|[c ->]]; [by destruct q|done].
  - unfold on_link_request. wps; try (apply HK; [reflexivity..|sub]). all: apply N.ltb_ge in Heqb0; rewrite Hst in Heqb0; by destruct Heqb0.
  - unfold on_unlink_notify, down_resume, discard_request. wps. destruct (x_cl s !! c) as [x|] eqn:Hc; [|wps; apply HK; [reflexivity..|sub]].
    destruct x as [?| |k]; wps; try (apply Hirr; [by apply (Hcl c)|done]).
    all: first [apply bool_decide_eq_false in H0; cbn in H0; congruence|apply bool_decide_eq_false in H; cbn in H; congruence].
  - unfold forget_link. wps. destruct (x_sv s !! a) as [x|] eqn:Ha; [|by wps]. wps.
    assert (Hne : x_sv s <> ∅) by (intros E; by rewrite E in Ha).
    eapply wp_call; [apply wp_and; [apply forget_links_settles|apply wp_sub]|]. cbv beta. intros b s1 ev1 (((B1 & B2 & B3 & B4 & B5) & C1 & C2 & C3) & C4). cbn in B1, B2, B3, B4, B5, C1, C2, C3. wps.
    + apply Hirr; [|congruence]. split; rewrite B2, ?C1; [|apply HA]. intros E%HA. done.
    + apply bool_decide_eq_false in Heqb0. congruence.
    + eapply (same_stuck s); [congruence..|by right|congruence|exact C4|done].
  - repeat (apply andb_true_iff in H as [H ?]). apply bool_decide_eq_true in H0. cbn in H0. congruence.
  - apply bool_decide_eq_true in H. congruence.
  - apply N.ltb_lt in H. rewrite Hst in H. lia.
  - unfold down_resume. wps; [by apply Hirr|]. apply bool_decide_eq_false in H. done.
Qed.
(** A step. *)
Lemma settle_step o s s' tr e : reach False s tr -> reach False s' (tr ++ e) -> ~ late_link tr -> x_prog s = false -> (forall q, q ∈ x_late s -> link_query q = false) -> settled_down s tr -> lrule o s ->
  Forall (ok_ev o s) e -> astep cfg ra unl s o = Ok (s', e) -> settled_down s' (tr ++ e).
Proof.
  intros HR HR' Hn Hp HL HS Hl Hok He.
  assert (HA : agreed s). { split; [|apply (reach_down _ _ _ HR)]. intros Hd. by destruct (reach_sv _ _ _ HR Hd). }
  assert (HW : forall Q, wp false (aprog cfg ra unl o) Q s tr -> Q tt s' (tr ++ e)).
  { intros Q W. unfold wp in W. unfold astep, to_step in He. destruct (aprog cfg ra unl o s) as [[[s1 e1] []]| |]; [|done..]. by injection He as <- <-. }
  destruct (decide (x_st s = AShuttingDown)) as [Hst|Hst].
  { apply (HW (fun _ s' ev' => settled_down s' ev')). by apply settle_down. }
  destruct (decide (x_st s' = AShuttingDown)) as [Hs'|]; [|by intros ?].
  assert (Ho : o = OShutReq).
  { rewrite (reach_state _ _ _ HR') in Hs'. apply state_of_down in Hs' as [Hs'|[b Hb]]; [by rewrite <- (reach_state _ _ _ HR) in Hs'|].
    rewrite Forall_forall in Hok. by apply Hok in Hb. }
  subst o. assert (W : s' = s \/ settled_down s' (tr ++ e)); [|destruct W as [-> |]; done].
  apply (HW (fun _ s' ev' => s' = s \/ settled_down s' ev')).
  unfold aprog. wps; [by left|]. cbn [astep_live]. unfold set_state. wps; [|by left]. wp_use (apply continue_settles; [exact HA|done]). auto.
Qed.
(** The last subscription of an actor which waits only for it. *)
Lemma last_step s s' e : x_st s = AShuttingDown -> has_any s = false -> x_cl s = ∅ -> x_sv s = ∅ -> x_d s PRg = false -> astep cfg ra unl s OUnsubscribed = Ok (s', e) -> x_st s' = AShutDown.
Proof.
  intros Hst Hn Hc Hv Hg. apply (wp_step (aprog cfg ra unl OUnsubscribed) (fun _ s' _ => x_st s' = AShutDown)).
  unfold aprog. wps; [by apply bool_decide_eq_true in Heqb|]. cbn [astep_live]. unfold down_resume. wps; [|apply bool_decide_eq_false in H; done]. clear H.
  assert (Hd : forall s ev, wp false (shutdown_finish) (fun _ s' _ => x_st s' = AShutDown) s ev).
  { clear. intros s ev. unfold shutdown_finish, set_state. by wps. }
  assert (H5 : forall s ev, x_pts s = false -> wp false (shutdown_loop unl [PLife]) (fun _ s' _ => x_st s' = AShutDown) s ev).
  { intros s1 ev1 E1. cbn [shutdown_loop handle_shutdown]. unfold reaction_down. wps; [apply Hd| |apply Hd]. by rewrite E1 in Heqb1. }
  assert (H4 : forall s ev, x_pts s = false -> x_cl s = ∅ -> wp false (shutdown_loop unl [PLs; PLife]) (fun _ s' _ => x_st s' = AShutDown) s ev).
  { intros s1 ev1 E1 E2. change (shutdown_loop unl [PLs; PLife]) with (s <- get ;; if x_d s PLs then b <- handle_shutdown unl PLs ;; emit (EvShutVote PLs b) ;; (if b : bool then reaction_down PLs false ;; shutdown_loop unl [PLife] else skip) else shutdown_loop unl [PLife]).
    cbn [handle_shutdown]. unfold reaction_down. wps; [|by apply H5]. wp_use (apply notify_settles). intros _ s2 ev2 ((_ & _ & _ & _ & B1) & B2 & B3 & B4). apply same_empty in B3. wps; [apply H5; cbn; congruence|].
    apply bool_decide_eq_false in Heqb1. destruct Heqb1. by apply B3. }
  assert (H3 : forall s ev, x_pts s = false -> x_cl s = ∅ -> x_sv s = ∅ -> wp false (shutdown_loop unl [PLc; PLs; PLife]) (fun _ s' _ => x_st s' = AShutDown) s ev).
  { intros s1 ev1 E1 E2 E3. change (shutdown_loop unl [PLc; PLs; PLife]) with (s <- get ;; if x_d s PLc then b <- handle_shutdown unl PLc ;; emit (EvShutVote PLc b) ;; (if b : bool then reaction_down PLc false ;; shutdown_loop unl [PLs; PLife] else skip) else shutdown_loop unl [PLs; PLife]).
    cbn [handle_shutdown]. unfold reaction_down, client_shutdown. wps; [by apply H4| |by apply H4]. apply bool_decide_eq_false in Heqb1. done. }
  assert (H2 : forall s ev, x_pts s = false -> x_cl s = ∅ -> x_sv s = ∅ -> x_d s PRg = false -> wp false (shutdown_loop unl [PRg; PLc; PLs; PLife]) (fun _ s' _ => x_st s' = AShutDown) s ev).
  { intros s1 ev1 E1 E2 E3 E4. change (shutdown_loop unl [PRg; PLc; PLs; PLife]) with (s <- get ;; if x_d s PRg then b <- handle_shutdown unl PRg ;; emit (EvShutVote PRg b) ;; (if b : bool then reaction_down PRg false ;; shutdown_loop unl [PLc; PLs; PLife] else skip) else shutdown_loop unl [PLc; PLs; PLife]).
    wps; [congruence|by apply H3]. }
  unfold shutdown_continue, shutdown_order. wps.
  change (shutdown_loop unl [PRs; PRg; PLc; PLs; PLife]) with (s <- get ;; if x_d s PRs then b <- handle_shutdown unl PRs ;; emit (EvShutVote PRs b) ;; (if b : bool then reaction_down PRs false ;; shutdown_loop unl [PRg; PLc; PLs; PLife] else skip) else shutdown_loop unl [PRg; PLc; PLs; PLife]).
  cbn [handle_shutdown]. unfold reaction_down. wps; [by apply H2| |by apply H2].
  apply negb_false_iff in Heqb1. unfold has_any in *. cbn in Heqb1. congruence.
Qed.
End op.
