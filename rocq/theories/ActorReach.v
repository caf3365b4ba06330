(** The steps of the actor are sequences of moves. *)
From stdpp Require Import base list gmap.
From Verif Require Import Base Prog ActorModel ActorSpec ActorMoves.
Open Scope N_scope.
Local Open Scope prog_scope.

(** Simplify projections of updated states. *)
Ltac psimpl1 :=
  match goal with
  | |- context [?p (?w ?s ?v)] =>
      lazymatch type of w with astore -> _ -> astore => idtac end;
      first [change (p (w s v)) with (p s) | change (p (w s v)) with v]
  end.
Ltac psimpl := repeat psimpl1.
Ltac psimpl_in1 H :=
  match type of H with
  | context [?p (?w ?s ?v)] =>
      lazymatch type of w with astore -> _ -> astore => idtac end;
      first [change (p (w s v)) with (p s) in H | change (p (w s v)) with v in H]
  end.
Ltac psimpl_in H := repeat psimpl_in1 H.

(** A discovery is pending only when the registry is linked. *)
Definition inv_lked (s : astore) : Prop :=
  (forall id n, x_pend s !! id = Some (QDisc n) -> x_lked s = true) /\
  (forall n, QDisc n ∈ x_late s -> x_lked s = true) /\
  (forall a, is_Some (x_al s !! a) -> x_lked s = true) /\
  (forall n t, x_dm s !! n = Some t -> is_Some (t_addr t) -> x_lked s = true).
Lemma reach_lked D s ev : reach D s ev -> inv_lked s.
Proof.
  apply (reach_inv D (fun s _ => inv_lked s)).
  - repeat split; intros *; cbn; try rewrite lookup_empty; try done; [by intros ?%elem_of_nil|by intros [? ?]].
  - clear. intros s ev e s' _ (H1 & H2 & H3 & H4) Hm.
    assert (Hdel : forall l n t, del_all l (x_dm s) !! n = Some t -> x_dm s !! n = Some t).
    { intros l n t. unfold del_all. generalize (x_dm s). induction l as [|x l IH]; intros m; cbn; [done|].
      intros [_ ?]%IH%lookup_delete_Some. done. }
    assert (Hins : forall q, (forall n, q <> QDisc n) -> forall id n, <[x_next s := q]> (x_pend s) !! id = Some (QDisc n) -> x_lked s = true).
    { intros q Hq id n [[_ ?]|[_ ?]]%lookup_insert_Some; [by destruct (Hq n)|eauto]. }
    destruct Hm; try (by (repeat split; assumption)).
    + split; [|by repeat split]. cbn. by apply Hins.
    + split; [|by repeat split]. cbn. naive_solver.
    + repeat split; cbn; try assumption. intros m t' [[<- <-]|[? ?]]%lookup_insert_Some; [|eauto]. intros [? ?]. congruence.
    + split; [|by repeat split]. cbn. by apply Hins.
    + repeat split; intros *; cbn; auto.
    + repeat split; cbn; auto.
    + repeat split; cbn; eauto.
    + repeat split; cbn; auto. intros b _. eapply H4; [exact H0|]. by rewrite H5.
    + repeat split; cbn; eauto.
    + repeat split; cbn; eauto. intros m t' [[<- <-]|[? ?]]%lookup_insert_Some; eauto.
    + repeat split; cbn; eauto. intros a [? ?]. by rewrite lookup_empty in *.
    + destruct b; by repeat split.
    + split; [|by repeat split]. cbn. by apply Hins.
    + split; [|by repeat split]. cbn. naive_solver.
    + destruct b; by repeat split.
    + repeat split; cbn; auto. intros *. by rewrite lookup_empty.
    + repeat split; cbn; eauto. intros id' n. intros [_ ?]%lookup_delete_Some. eauto.
    + repeat split; cbn; eauto. { intros id' n. intros [_ ?]%lookup_delete_Some. eauto. }
      intros n [?|<-%elem_of_list_singleton]%elem_of_app; eauto.
    + repeat split; cbn; eauto. intros n Hn. apply (H2 n). rewrite H. by right.
Qed.

Section ready.
Context (D : Prop).
Notation reach := (reach D).

(** What the user may do inside of the init loop leaves these alone. *)
Definition unready (s : astore) : Prop := ready PRg s = false.
Definition frame (s s' : astore) : Prop :=
  x_st s' = x_st s /\ x_ireq s' = x_ireq s /\ (x_i s PRg = true -> x_i s' PRg = true).
Definition effect (u : uact) (s s' : astore) : Prop :=
  (~ link_act u -> ~ names_act u -> x_sv s' = x_sv s /\ x_rm s' = x_rm s /\ x_dm s' = x_dm s) /\
  (~ acquire_act u -> has_any s' = true -> has_any s = true) /\
  (names_act u -> unready s').

Lemma unready_rm s n m : m = <[n := RRegistering]> (x_rm s) -> unready (w_rm s m).
Proof.
  intros ->. unfold unready, ready, has_registering. apply andb_false_intro2, negb_false_iff, bool_decide_eq_true.
  cbn. exists n, RRegistering. split; [by rewrite lookup_insert|done].
Qed.
Lemma unready_dm s n t m : m = <[n := t]> (x_dm s) -> unready (w_dm s m).
Proof.
  intros ->. unfold unready, ready. apply andb_false_intro1, bool_decide_eq_false. cbn. apply insert_non_empty.
Qed.
Lemma has_any_spec s : has_any s = true <-> exists i, 0 < held s i.
Proof.
  unfold has_any, held. rewrite bool_decide_eq_true. split.
  - intros (i & v & H & Hv). exists i. rewrite H. cbn. lia.
  - intros (i & H). destruct (x_res s !! i) as [v|] eqn:E; cbn in H; [|lia]. exists i, v. split; [done|lia].
Qed.
Lemma has_any_dec s i : has_any (w_res s (<[i := held s i - 1]> (x_res s))) = true -> has_any s = true.
Proof.
  rewrite !has_any_spec. intros (j & H). exists j. revert H. unfold held. cbn. destruct (decide (j = i)) as [->|Hn].
  - rewrite lookup_insert. cbn. lia.
  - by rewrite lookup_insert_ne by done.
Qed.

(** A plugin whose INIT reaction is off has nothing to wait for. *)
Definition inv_ready (s : astore) : Prop :=
  x_st s = AInitializing ->
  (x_i s PLc = false -> ready PLc s = true) /\ (D -> x_i s PRg = false -> ready PRg s = true) /\ (x_i s PRs = false -> ready PRs s = true).
Lemma linking_ins s a x m : x_sv s = m -> is_linking x = false -> has_linking s = false -> has_linking (w_sv s (<[a := x]> m)) = false.
Proof.
  intros <- Hx. unfold has_linking. rewrite !bool_decide_eq_false. intros Hn (b & y & Hb & Hy). apply Hn. exists b, y. split; [|done].
  cbn in Hb. apply lookup_insert_Some in Hb as [[_ <-]|[_ ?]]; [congruence|done].
Qed.
Lemma linking_del s a : has_linking s = false -> has_linking (w_sv s (delete a (x_sv s))) = false.
Proof.
  unfold has_linking. rewrite !bool_decide_eq_false. intros Hn (b & y & Hb & Hy). apply Hn. exists b, y. split; [|done].
  cbn in Hb. by apply lookup_delete_Some in Hb as [_ ?].
Qed.
Lemma registering_upd (ok : bool) s n : has_registering s = false ->
  has_registering (w_rm s (if ok then <[n := ROperational]> (x_rm s) else delete n (x_rm s))) = false.
Proof.
  unfold has_registering. rewrite !bool_decide_eq_false. intros Hn (b & y & Hb & Hy). apply Hn. exists b, y. split; [|done].
  cbn in Hb. destruct ok; [apply lookup_insert_Some in Hb as [[_ <-]|[_ ?]]|apply lookup_delete_Some in Hb as [_ ?]]; done.
Qed.
Lemma ready_PRg s : ready PRg s = true <-> x_dm s = ∅ /\ has_registering s = false.
Proof. cbn. by rewrite andb_true_iff, bool_decide_eq_true, negb_true_iff. Qed.
Lemma ready_PLc s : ready PLc s = true <-> has_linking s = false.
Proof. cbn. by rewrite negb_true_iff. Qed.
Lemma ready_PRs s : ready PRs s = true <-> has_any s = false.
Proof. cbn. by rewrite negb_true_iff. Qed.
Lemma updp_eq f p b : updp f p b p = b.
Proof. unfold updp. by rewrite decide_True. Qed.
Lemma updp_ne f p q b : p <> q -> updp f p b q = f q.
Proof. intros H. unfold updp. by rewrite decide_False by congruence. Qed.
Lemma del_all_empty l : del_all l ∅ = ∅.
Proof. unfold del_all. induction l as [|x l IH]; cbn; [done|]. by rewrite delete_empty. Qed.

Lemma reach_ready s ev : reach s ev -> inv_ready s.
Proof.
  apply (reach_inv D (fun s _ => inv_ready s)).
  - intros _. cbn. repeat split; intros; vm_compute; done.
  - clear. intros s ev e s' _ HI Hm. unfold inv_ready in *. rewrite ready_PLc, ready_PRg, ready_PRs in *.
    destruct Hm; psimpl; try (exact HI); try (by intros; congruence).
    + intros Hst. destruct (HI Hst) as (I1 & I2 & I3). split_and!; cbn; done.
    + intros Hst. destruct (HI Hst) as (I1 & I2 & I3). split_and!; try done. intros. apply linking_del. auto.
    + intros Hst. destruct (HI Hst) as (I1 & I2 & I3). split_and!; try done. intros. apply linking_ins; auto.
    + intros Hst. destruct (HI Hst) as (I1 & I2 & I3). split_and!; try done. intros. apply linking_del. auto.
    + intros Hst. destruct (HI Hst) as (I1 & I2 & I3). split_and!; try done. intros. by apply (linking_del s), I1.
    + intros Hst. destruct (HI Hst) as (I1 & I2 & I3). split_and!; try done. intros HDD Hi. destruct (H HDD); congruence.
    + intros Hst. destruct (HI Hst) as (I1 & I2 & I3). split_and!; try done. intros HDD Hi. destruct (H HDD); congruence.
    + intros Hst. destruct (HI Hst) as (I1 & I2 & I3). split_and!; try done. intros HDD Hi. destruct (I2 HDD Hi) as [E _].
      by rewrite E, lookup_empty in H0.
    + intros Hst. destruct (HI Hst) as (I1 & I2 & I3). split_and!; try done. intros HDD Hi. destruct (I2 HDD Hi) as [E ?].
      split; [done|]. by apply (registering_upd true).
    + intros Hst. destruct (HI Hst) as (I1 & I2 & I3). split_and!; try done. intros HDD Hi. destruct (I2 HDD Hi) as [E ?].
      split; [done|]. by apply (registering_upd false).
    + intros Hst. destruct (HI Hst) as (I1 & I2 & I3). split_and!; try done. intros HDD Hi. destruct (I2 HDD Hi) as [E _].
      by rewrite E, lookup_empty in H.
    + intros Hst. destruct (HI Hst) as (I1 & I2 & I3). split_and!; try done. intros HDD Hi. destruct (I2 HDD Hi) as [-> ?].
      by rewrite del_all_empty.
    + intros Hst. destruct (HI Hst) as (I1 & I2 & I3). split_and!; try done. intros HDD Hi. destruct (I2 HDD Hi) as [-> ?].
      by rewrite del_all_empty.
    + intros Hst. destruct (HI Hst) as (I1 & I2 & I3). split_and!; try done. intros HDD Hi. destruct (I2 HDD Hi) as [E _].
      by rewrite E, lookup_empty in H.
    + case_bool_decide as E; [|by intros ?]. intros _. destruct (HI E) as (I1 & I2 & I3). cbn. split_and!; done.
    + intros Hst. destruct (HI Hst) as (I1 & I2 & I3). split_and!; try done. intros Hi. apply not_true_is_false. intros Ha.
      apply has_any_dec in Ha. rewrite I3 in Ha; done.
    + destruct b; [|exact HI]. psimpl. intros Hst. destruct (HI Hst) as (I1 & I2 & I3).
      destruct p; (rewrite ?updp_eq; rewrite ?updp_ne by done); try done; split_and!; intros; try (by auto).
      * by apply ready_PLc.
      * by apply ready_PRg.
      * by apply ready_PRs.
    + destruct b; [|exact HI]. psimpl. exact HI.
Qed.
End ready.

(** What holds of some reachable states and is kept by the moves is kept by the steps. *)
Section reach.
Context (cfg : plug -> list uact) (reg_addr : N) (unl : bool) (D : Prop) (HD : D -> usage_cfg cfg).
Context (rch : astore -> list aev -> Prop) (rch_move : forall s ev e s', rch s ev -> move D s e s' -> rch s' (ev ++ e)) (rch_sub : forall s ev, rch s ev -> ActorMoves.reach D s ev).
Notation reach := rch.

Lemma rch_nil s ev s' : reach s ev -> move D s [] s' -> reach s' ev.
Proof. intros H1 H2. rewrite <- (app_nil_r ev). by eapply rch_move. Qed.
Tactic Notation "nl" uconstr(c) := refine (rch_nil _ _ _ _ c).
Ltac rv H := apply (rch_move _ _ _ _ H).

Lemma link_reach s ev a o cb :
  reach s ev -> wp false (link a o cb) (fun _ s' ev' => reach s' ev' /\ frame s s' /\ x_res s' = x_res s /\ x_rm s' = x_rm s /\ x_dm s' = x_dm s /\ x_lked s' = x_lked s /\ x_d s' = x_d s /\ x_al s' = x_al s /\ x_i s' PRg = x_i s PRg) s ev.
Proof.
  intros H. unfold link, reaction_init, request. wps. apply bool_decide_eq_true in H0. psimpl. repeat split; try done.
  rv H. apply (MLink D s a o cb H0).
Qed.

Lemma act_reach u s ev :
  reach s ev -> (D -> names_act u -> x_st s = AInitializing /\ x_i s PRg = true) ->
  wp false (act reg_addr u) (fun _ s' ev' => reach s' ev' /\ frame s s' /\ effect u s s') s ev.
Proof.
  intros H HU. destruct u; cbn [act].
  - wp_use (by apply link_reach). intros [] s1 ev1 (H1 & Hf & Hr & Hm & Hd & _). wps. split; [done|]. split; [done|].
    unfold frame, effect; split_and!; try (by intros Hn; destruct Hn). intros _. unfold has_any. by rewrite Hr.
  - unfold register_name. wps.
    all: apply bool_decide_eq_true in H0.
    + unfold link_registry. wps. wp_use (apply link_reach; nl (MLking D s); exact H).
      intros [] s1 ev1 (H3 & (F1 & F2 & F3) & F4 & F5 & F6 & F7 & F8 & F9 & F10). psimpl_in F1; psimpl_in F2; psimpl_in F3; psimpl_in F4; psimpl_in F5; psimpl_in F6; psimpl_in F10. wps.
      split; [|split].
      * rv H3. apply MRegister; [|by rewrite F5|rewrite F7; by apply negb_true_iff]. intros HDD. rewrite F1, F10. by apply HU.
      * unfold frame, effect; split_and!; psimpl; auto.
      * unfold frame, effect; split_and!; psimpl; try (by intros Hn; destruct Hn); try (by intros _ Hn; destruct Hn); try done. { intros _. unfold has_any. psimpl. by rewrite F4. } intros _. by eapply unready_rm.
    + split; [|split].
      * rv H. by apply MRegister; [intros HDD; apply HU| |by apply negb_true_iff].
      * unfold frame, effect; split_and!; psimpl; auto.
      * unfold frame, effect; split_and!; psimpl; try (by intros Hn; destruct Hn); try (by intros _ Hn; destruct Hn); try done. intros _. by eapply unready_rm.
  - unfold discover_name. wps.
    all: apply bool_decide_eq_true in H0.
    + unfold link_registry. wps. wp_use (apply link_reach; nl (MLking D s); exact H).
      intros [] s1 ev1 (H3 & (F1 & F2 & F3) & F4 & F5 & F6 & F7 & F8 & F9 & F10). psimpl_in F1; psimpl_in F2; psimpl_in F3; psimpl_in F4; psimpl_in F5; psimpl_in F6; psimpl_in F7; psimpl_in F10. wps.
      split; [|split].
      * rv H3. apply MDiscover; [|by rewrite F6|rewrite F7; by apply negb_true_iff|done]. intros HDD. rewrite F1, F10. by apply HU.
      * unfold frame, effect; split_and!; psimpl; auto.
      * unfold frame, effect; split_and!; psimpl; try (by intros Hn; destruct Hn); try (by intros _ Hn; destruct Hn); try done. { intros _. unfold has_any. psimpl. by rewrite F4. } intros _. by eapply unready_dm.
    + split; [|split].
      * rv H. apply MDiscover; [by intros HDD; apply HU|done|by apply negb_true_iff|done].
      * unfold frame, effect; split_and!; psimpl; auto.
      * unfold frame, effect; split_and!; psimpl; try (by intros Hn; destruct Hn); try (by intros _ Hn; destruct Hn); try done. intros _. by eapply unready_dm.
  - unfold acquire, reaction_init, reaction_down. wps.
    all: pose proof (rch_move _ _ _ _ H (MAcquire D s i)) as HR.
    + rewrite Heqb in HR. split; [exact HR|]. split; [unfold frame, effect; split_and!; psimpl; auto|]. unfold frame, effect; split_and!; psimpl; try done.
    + rewrite Heqb, H0 in HR. split; [exact HR|]. split; [unfold frame, effect; split_and!; psimpl; auto|]. unfold frame, effect; split_and!; psimpl; try done.
    + rewrite Heqb, H0 in HR. split; [exact HR|]. split; [unfold frame, effect; split_and!; psimpl; auto|]. unfold frame, effect; split_and!; psimpl; try done.
  - unfold release. wps. split; [|split].
    + rv H. apply MRelease. by apply N.ltb_lt.
    + unfold frame, effect; split_and!; psimpl; auto.
    + unfold frame, effect; split_and!; psimpl; try done. intros _. apply has_any_dec.
  - wps. split; [by nl (MTrack D s _)|]. split; [unfold frame, effect; split_and!; psimpl; auto|]. unfold frame, effect; split_and!; psimpl; try done.
Qed.

(** configure() inside of the init loop *)
Definition good_links (s : astore) : Prop := ready PLc s = true \/ unready s.
Lemma ready_same s s' : x_sv s' = x_sv s /\ x_rm s' = x_rm s /\ x_dm s' = x_dm s -> ready PLc s' = ready PLc s /\ ready PRg s' = ready PRg s.
Proof. intros (-> & -> & ->) || intros (E1 & E2 & E3). cbn. unfold has_linking, has_registering. by rewrite E1, E2, E3. Qed.

Lemma frame_refl s : frame s s.
Proof. by repeat split. Qed.
Lemma frame_trans s1 s2 s3 : frame s1 s2 -> frame s2 s3 -> frame s1 s3.
Proof. intros (A1 & A2 & A3) (B1 & B2 & B3). split_and!; [congruence..|auto]. Qed.

Lemma configure_reach p s ev :
  reach s ev -> x_st s = AInitializing -> x_i s p = true -> p ∈ init_order ->
  wp false (configure cfg reg_addr p) (fun _ s' ev' => reach s' ev' /\ frame s s' /\
    (D -> (p = PRg -> good_links s -> good_links s') /\
          (p = PRs \/ p = PSt -> ready PLc s' = ready PLc s /\ ready PRg s' = ready PRg s) /\
          (p = PSt -> has_any s' = true -> has_any s = true))) s ev.
Proof.
  intros H Hst Hip Hpo. unfold configure.
  apply (wp_each false (cfg p) _ (fun s' ev' => reach s' ev' /\ frame s s' /\
    (D -> (p = PRg -> good_links s -> good_links s') /\
          (p = PRs \/ p = PSt -> ready PLc s' = ready PLc s /\ ready PRg s' = ready PRg s) /\
          (p = PSt -> has_any s' = true -> has_any s = true)))).
  2:{ split; [done|]. split; [apply frame_refl|]. intros _. by split_and!. }
  intros u s1 ev1 Hu (H1 & F & HF).
  assert (HA : D -> (names_act u -> p = PRg) /\ (p = PRg -> ~ link_act u) /\ (p = PRs \/ p = PSt -> ~ link_act u /\ ~ names_act u) /\ (p = PSt -> ~ acquire_act u)).
  { intros HDD. destruct (HD HDD) as (U1 & U2 & U3 & U4). rewrite Forall_forall in U1, U2, U3, U4.
    destruct p; try (by apply elem_of_list_In in Hpo; cbn in Hpo; naive_solver); split_and!; try done; naive_solver. }
  wp_use (apply act_reach; [done|]).
  { intros HDD Hn. destruct (HA HDD) as (Hp & _). rewrite (Hp Hn) in Hip. destruct F as (F1 & _ & F3). rewrite F1. auto. }
  intros b s2 ev2 (H2 & F2 & E1 & E2 & E3). wps. split; [done|]. split; [by eapply frame_trans|].
  intros HDD. destruct (HF HDD) as (G1 & G2 & G3). destruct (HA HDD) as (A0 & A1 & A2 & A3). split_and!.
  - intros Hp Hg. destruct (decide (names_act u)) as [Hn|Hn]; [right; auto|].
    destruct (ready_same _ _ (E1 (A1 Hp) Hn)) as [R1 R2]. unfold good_links, unready. rewrite R1, R2. by apply G1.
  - intros Hp. destruct (A2 Hp) as [A2a A2b]. destruct (ready_same _ _ (E1 A2a A2b)) as [R1 R2]. rewrite R1, R2. auto.
  - auto.
Qed.

Lemma configure_once_reach p s ev :
  reach s ev -> x_st s = AInitializing -> x_i s p = true -> p ∈ init_order ->
  wp false (configure_once cfg reg_addr p) (fun _ s' ev' => reach s' ev' /\ frame s s' /\
    (D -> (p = PRg -> good_links s -> good_links s') /\
          (p = PRs \/ p = PSt -> ready PLc s' = ready PLc s /\ ready PRg s' = ready PRg s) /\
          (p = PSt -> has_any s' = true -> has_any s = true))) s ev.
Proof.
  intros H Hst Hip Hpo. unfold configure_once. wps.
  - wp_use (apply configure_reach; [by nl (MConf D s p)|done|done|done]). intros [] s1 ev1 (H1 & F & HF).
    split; [done|]. split; [exact F|exact HF].
  - split; [done|]. split; [apply frame_refl|]. intros _. by split_and!.
Qed.

Lemma handle_init_reach p s ev :
  reach s ev -> x_st s = AInitializing -> x_i s p = true -> p ∈ init_order ->
  wp false (handle_init cfg reg_addr p) (fun b s' ev' => reach s' ev' /\ frame s s' /\ ready p s' = b /\
    (D -> (p = PRg -> good_links s -> good_links s') /\
          (p = PRs \/ p = PSt -> ready PLc s' = ready PLc s /\ ready PRg s' = ready PRg s) /\
          (p = PSt -> has_any s' = true -> has_any s = true))) s ev.
Proof.
  intros H Hst Hip Hpo. destruct p; try (by apply elem_of_list_In in Hpo; cbn in Hpo; naive_solver); cbn [handle_init].
  1-3: wp_use (by apply configure_once_reach); intros [] s1 ev1 (H1 & F & HF); wps; split_and!; try done; by apply F.
  wps.
  - wp_use (by apply configure_once_reach); intros [] s1 ev1 (H1 & F & HF). wps.
    + unfold reaction_init. wps. psimpl. apply bool_decide_eq_true in H2. rewrite H2. split_and!; try done; try (by apply F); [|unfold ready; by rewrite H2].
      nl (MSubOff D _). by nl (MStarterOff D _ H2).
    + split_and!; try done; by apply F.
  - split; [done|]. split; [apply frame_refl|]. split; [done|]. intros _. by split_and!.
Qed.

Lemma frame_init s s' : frame s s' -> x_st s = AInitializing -> x_ireq s = true -> x_st s' = AInitializing /\ x_ireq s' = true.
Proof. intros (-> & -> & _). done. Qed.

Lemma init_loop_reach p r (R R' : astore -> Prop) s ev :
  (forall s ev, reach s ev -> x_st s = AInitializing -> x_ireq s = true -> (D -> R' s) -> wp false (init_loop cfg reg_addr r) (fun _ => reach) s ev) ->
  p ∈ init_order ->
  (forall s ev, D -> reach s ev -> x_st s = AInitializing -> R s -> x_i s p = false -> R' s) ->
  (forall s s', D -> R s -> ready p s' = true ->
    (p = PRg -> good_links s -> good_links s') /\
    (p = PRs \/ p = PSt -> ready PLc s' = ready PLc s /\ ready PRg s' = ready PRg s) /\
    (p = PSt -> has_any s' = true -> has_any s = true) -> R' (w_i s' (updp (x_i s') p false))) ->
  reach s ev -> x_st s = AInitializing -> x_ireq s = true -> (D -> R s) ->
  wp false (init_loop cfg reg_addr (p :: r)) (fun _ => reach) s ev.
Proof.
  intros Hr Hp Hoff Hon H Hst Hrq HR. cbn [init_loop]. wp1. wp1.
  - wp_use (by apply handle_init_reach). intros b s1 ev1 (H1 & F & Hb & HF). destruct (frame_init _ _ F Hst Hrq) as [Hst1 Hrq1]. wps.
    + unfold reaction_init. wps. apply Hr; try done.
      * apply (rch_move _ _ _ _ H1 (MInitVote D s1 p true Hst1 Hb)).
      * intros HDD. apply (Hon s s1); auto.
    + nl (MProg D _ _). apply (rch_move _ _ _ _ H1 (MInitVote D s1 p false Hst1 Hb)).
  - apply Hr; try done. intros HDD. eapply Hoff; eauto.
Qed.

Lemma init_continue_reach s ev : reach s ev -> wp false (init_continue cfg reg_addr) (fun _ => reach) s ev.
Proof.
  intros H. unfold init_continue. wps. apply bool_decide_eq_true in H0.
  assert (HI : reach (w_prog s true) ev) by by nl (MProg D s _).
  assert (forall s, has_any s = true \/ has_any s = false) as Hcase by (intros s'; destruct (has_any s'); auto).
  apply (init_loop_reach PLc _ (fun _ => True) (fun s => ready PLc s = true)); [|by left| |by intros|done|done|done|done].
  2:{ intros s1 ev1 HDD H2 Hst _ Hi. by apply (reach_ready D _ _ (rch_sub _ _ H2) Hst). }
  clear s ev H H0 H1 HI. intros s ev H Hst Hrq HR.
  apply (init_loop_reach PRg _ (fun s => ready PLc s = true) (fun s => ready PLc s = true /\ ready PRg s = true)); [|by right; left| | |done|done|done|done].
  2:{ intros s1 ev1 HDD H2 Hst2 HR1 Hi. split; [done|]. by apply (reach_ready D _ _ (rch_sub _ _ H2) Hst2). }
  2:{ intros s1 s2 HDD HR1 Hb (G & _ & _). split; [|done]. destruct (G eq_refl (or_introl HR1)) as [?|?]; [done|].
      unfold unready in *. congruence. }
  clear s ev H Hst Hrq HR. intros s ev H Hst Hrq HR.
  apply (init_loop_reach PRs _ (fun s => ready PLc s = true /\ ready PRg s = true) (fun s => ready PLc s = true /\ ready PRg s = true /\ ready PRs s = true)); [|by do 2 right; left| | |done|done|done|done].
  2:{ intros s1 ev1 HDD H2 Hst2 [HR1 HR2] Hi. split_and!; try done. by apply (reach_ready D _ _ (rch_sub _ _ H2) Hst2). }
  2:{ intros s1 s2 HDD [HR1 HR2] Hb (_ & G & _). destruct (G (or_introl eq_refl)) as [G1 G2].
      rewrite <- G1 in HR1. rewrite <- G2 in HR2. split_and!; assumption. }
  clear s ev H Hst Hrq HR. intros s ev H Hst Hrq HR.
  apply (init_loop_reach PSt _ (fun s => ready PLc s = true /\ ready PRg s = true /\ ready PRs s = true) (fun s => ready PLc s = true /\ ready PRg s = true /\ ready PRs s = true)); [|by do 3 right; left|by intros| |done|done|done|done].
  2:{ intros s1 s2 HDD (HR1 & HR2 & HR3) Hb (_ & G & G'). destruct (G (or_intror eq_refl)) as [G1 G2].
      rewrite <- G1 in HR1. rewrite <- G2 in HR2. split_and!; [assumption..|].
      apply negb_true_iff. apply negb_true_iff in HR3. destruct (Hcase s2) as [E|E]; [|exact E]. rewrite G' in HR3; done. }
  clear s ev H Hst Hrq HR. intros s ev H Hst Hrq HR. cbn [init_loop]. unfold init_finish, set_state. wps. psimpl. rewrite Hst.
  rewrite <- (assoc_L (++)). assert (HP : reach (w_prog s false) ev) by by nl (MProg D s _).
  rv HP. by apply MInitOk.
Qed.

(** ** Shutdown *)
Definition framed (s s' : astore) : Prop := x_st s' = x_st s /\ x_d s' = x_d s /\ x_rm s' = x_rm s.
Lemma framed_refl s : framed s s.
Proof. done. Qed.
Lemma framed_trans s1 s2 s3 : framed s1 s2 -> framed s2 s3 -> framed s1 s3.
Proof. intros (A1 & A2 & A3) (B1 & B2 & B3). split_and!; congruence. Qed.
(** The loops go over the entries of a map, changing the current one. *)
Definition todo {A} (r : list (N * A)) (m : gmap N A) : Prop :=
  NoDup r.*1 /\ forall k x, (k, x) ∈ r -> m !! k = Some x.
Lemma todo_init {A} (m : gmap N A) : todo (map_to_list m) m.
Proof. split; [apply NoDup_fst_map_to_list|]. by intros k x ?%elem_of_map_to_list. Qed.
Lemma todo_next {A} k (x : A) r m m' : todo ((k, x) :: r) m -> (forall k', k' <> k -> m' !! k' = m !! k') -> todo r m'.
Proof.
  intros [H1 H2] Hm. cbn in H1. apply NoDup_cons in H1 as [Hk H1]. split; [done|]. intros k' x' Hx. rewrite Hm; [apply H2; by right|].
  intros ->. apply Hk. apply elem_of_list_fmap. by exists (k, x').
Qed.
Lemma todo_here {A} k (x : A) r m : todo ((k, x) :: r) m -> m !! k = Some x.
Proof. intros [_ H]. apply H. by left. Qed.

Lemma notify_reach s ev : reach s ev ->
  wp false notify_shutdown (fun _ s' ev' => reach s' ev' /\ framed s s' /\ forall c, x_cl s' !! c <> Some COperational) s ev.
Proof.
  intros H. unfold notify_shutdown. wps.
  apply (wp_each_list false _ _ (fun r s' ev' => reach s' ev' /\ framed s s' /\ todo r (x_cl s') /\
    forall c, x_cl s' !! c = Some COperational -> (c, COperational) ∈ r)).
  - intros [c x] r s1 ev1 (H1 & F & HT & HO). unfold notify_client. pose proof (todo_here _ _ _ _ HT) as Hc. destruct x.
    + wps. split_and!; [done|apply F..|by eapply todo_next|]. intros c' Hc'. specialize (HO c' Hc'). by apply elem_of_cons in HO as [[= -> ?]|?].
    + unfold request. wps. psimpl. split_and!; [by rv H1; apply MAsk|apply F..| |].
      * eapply todo_next; [done|]. intros c' Hn. by rewrite lookup_insert_ne.
      * intros c' [[_ ?]|[Hn Hc']]%lookup_insert_Some; [done|]. specialize (HO c' Hc'). apply elem_of_cons in HO as [[= ?]|?]; [congruence|done].
    + wps. split_and!; [done|apply F..|by eapply todo_next|]. intros c' Hc'. specialize (HO c' Hc'). by apply elem_of_cons in HO as [[= -> ?]|?].
  - split_and!; try done; [apply todo_init..|]. intros c Hc. by apply elem_of_map_to_list.
  - intros s1 ev1 (H1 & F & _ & HO). split; [done|]. split; [done|]. intros c Hc. by apply HO, elem_of_nil in Hc.
Qed.

Lemma forget_all_reach l s ev : reach s ev ->
  wp false (forget_all unl l) (fun _ s' ev' => reach s' ev' /\ framed s s' /\ x_cl s' = x_cl s) s ev.
Proof.
  revert s ev. induction l as [|a l IH]; intros s ev H; cbn [forget_all]; [by wps|]. unfold forget_one. wps. destruct (x_sv s !! a) eqn:E; wps.
  - wp_use (apply IH; rv H; by apply MUnlinkReply). intros b s1 ev1 (H1 & F & E1). wps. done.
  - wp_use (by apply IH). intros b s1 ev1 (H1 & F & E1). by wps.
Qed.
Lemma forget_links_reach s ev : reach s ev ->
  wp false (forget_links unl) (fun _ s' ev' => reach s' ev' /\ framed s s' /\ x_cl s' = x_cl s) s ev.
Proof. intros H. unfold forget_links. wps; [by apply forget_all_reach|done]. Qed.

Lemma client_shutdown_reach s ev : reach s ev ->
  wp false (client_shutdown unl) (fun b s' ev' => reach s' ev' /\ framed s s' /\ done PLc s' = b /\ (b = false -> forall c, x_cl s' !! c <> Some COperational)) s ev.
Proof.
  intros H. unfold client_shutdown. wps; [by split_and!|].
  wp_use (by apply forget_links_reach). intros _ s1 ev1 (H1 & F1 & E1). wps.
  - apply bool_decide_eq_true in Heqb0.
    eapply wp_call; [apply (wp_each_list false _ _ (fun r s' ev' => reach s' ev' /\ framed s s' /\ todo r (x_sv s') /\ x_cl s' = ∅) (fun _ s' ev' => reach s' ev' /\ framed s s' /\ x_cl s' = ∅))| ].
    + intros [a x] r s2 ev2 (H2 & F2 & HT & E2). pose proof (todo_here _ _ _ _ HT) as Ha. unfold leave_server. wps.
      destruct (sr_st x) as [id|].
      * unfold discard_request. wps. split_and!; [|apply F2..| |done].
        -- rv H2. apply (MLeave D s2 a); [done|]. by intros id' q [_ ?]%lookup_delete_Some.
        -- eapply todo_next; [exact HT|]. intros k Hk. by apply lookup_delete_ne.
      * wps. split_and!; [|apply F2..| |done].
        -- rv H2. by apply (MLeave D s2 a (x_pend s2)).
        -- eapply todo_next; [exact HT|]. intros k Hk. by apply lookup_delete_ne.
    + split; [done|]. split; [done|]. split; [apply todo_init|done].
    + intros s2 ev2 (H2 & F2 & _ & E2). done.
    + intros _ s2 ev2 (H2 & F2 & E2). wps. split; [done|]. split; [done|]. split; [done|]. intros _ c. by rewrite E2, lookup_empty.
  - wp_use (by apply notify_reach). intros _ s2 ev2 (H2 & F2 & HN). wps. split; [done|]. split; [by eapply framed_trans|]. done.
Qed.

Lemma registry_shutdown_reach s ev : reach s ev -> x_st s = AShuttingDown ->
  wp false registry_shutdown (fun b s' ev' => reach s' ev' /\ x_st s' = x_st s /\ x_d s' = x_d s /\ done PRg s' = b /\ x_rm s' = ∅) s ev.
Proof.
  intros H Hst. unfold registry_shutdown. wps.
  eapply wp_call.
  { apply (wp_each_list false _ _ (fun r s' ev' => s' = s /\ todo r (x_rm s) /\ exists e, ev' = ev ++ e /\ NoDup e /\
        (forall n, x_rm s !! n = Some ROperational -> EvDereg n ∈ e \/ (n, ROperational) ∈ r) /\
        (forall x, x ∈ e -> exists n, x = EvDereg n /\ x_rm s !! n = Some ROperational /\ n ∉ r.*1))
      (fun _ s' ev' => s' = s /\ exists e, ev' = ev ++ e /\ NoDup e /\ forall x, x ∈ e <-> exists n, x = EvDereg n /\ x_rm s !! n = Some ROperational)).
    - intros [n x] r s1 ev1 (-> & HT & e & -> & HN & HE & HO). pose proof (todo_here _ _ _ _ HT) as Hn.
      assert (Hnr : n ∉ r.*1) by (destruct HT as [HT _]; cbn in HT; by apply NoDup_cons in HT as [? _]). wps.
      + apply bool_decide_eq_true in H0. subst x. split; [done|]. split; [by eapply todo_next|]. exists (e ++ [EvDereg n]). split; [by rewrite (assoc_L (++))|]. split_and!.
        * apply NoDup_app. split_and!; [done| |apply NoDup_singleton]. intros y Hy ->%elem_of_list_singleton. destruct (HO _ Hy) as (m & [= <-] & _ & Hm).
          apply Hm. by left.
        * intros m Hm. destruct (HE m Hm) as [?|[[= ->]|?]%elem_of_cons]; [left; apply elem_of_app; by left|left; apply elem_of_app; right; by left|by right].
        * intros y [Hy| ->%elem_of_list_singleton]%elem_of_app; [|by exists n].
          destruct (HO _ Hy) as (m & ? & ? & Hm). exists m. split_and!; try done. intros ?. apply Hm. by right.
      + split; [done|]. split; [by eapply todo_next|]. exists e. split_and!; try done.
        * intros m Hm. destruct (HE m Hm) as [?|[[= <- <-]|?]%elem_of_cons]; [by left| |by right].
          apply bool_decide_eq_false in H0. done.
        * intros y Hy. destruct (HO _ Hy) as (m & ? & ? & Hm). exists m. split_and!; try done. intros ?. apply Hm. by right.
    - split; [done|]. split; [apply todo_init|]. exists []. rewrite app_nil_r. split_and!; [done|constructor| |by intros x ?%elem_of_nil].
      intros n Hn. right. by apply elem_of_map_to_list.
    - intros s1 ev1 (-> & _ & e & -> & HN & HE & HO). split; [done|]. exists e. split_and!; try done. intros x. split.
      + intros Hx. destruct (HO _ Hx) as (n & ? & ? & _). by exists n.
      + intros (n & -> & Hn). by destruct (HE n Hn) as [?|?%elem_of_nil]. }
  intros _ s1 ev1 (-> & e & -> & HN & HE). wps.
  assert (H1 : reach (w_rm s ∅) (ev ++ e)) by (rv H; by apply MDereg).
  eapply wp_call.
  { apply (wp_each_list false _ _ (fun r s' ev' => reach s' ev' /\ x_st s' = x_st s /\ x_d s' = x_d s /\ x_rm s' = ∅ /\ todo r (x_dm s'))
      (fun _ s' ev' => reach s' ev' /\ x_st s' = x_st s /\ x_d s' = x_d s /\ x_rm s' = ∅)).
    - intros [n t] r s1 ev1 (H2 & E1 & E2 & E3 & HT). pose proof (todo_here _ _ _ _ HT) as Hn. unfold cancel_task. wps.
      + split_and!; try done; [rv H2; by apply (MCancel D s1 n t)|..].
        eapply todo_next; [exact HT|]. intros k Hk. by apply lookup_insert_ne.
      + split_and!; try done.
        * assert (Hp : x_st s1 = AInitializing -> exists a, x_al s1 !! a = Some [n]) by by rewrite E1, Hst.
          by nl (MPost D s1 [n] Hp).
        * eapply todo_next; [exact HT|]. intros k Hk. by apply lookup_delete_ne.
    - split_and!; try done; apply todo_init.
    - intros s1 ev1 (H2 & E1 & E2 & E3 & _). done. }
  intros _ s1 ev1 (H2 & E1 & E2 & E3). wps.
  - split_and!; try done. by nl (MAlClear D s1).
  - done.
Qed.

Lemma shutdown_loop_reach l done_ s ev : shutdown_order = done_ ++ l ->
  reach s ev -> x_st s = AShuttingDown -> (forall p, p ∈ done_ -> x_d s p = false) ->
  wp false (shutdown_loop unl l) (fun _ => reach) s ev.
Proof.
  revert done_ s ev. induction l as [|p l IH]; intros dn s ev HE H Hst Hd; cbn [shutdown_loop].
  - rewrite app_nil_r in HE. subst dn. unfold shutdown_finish, set_state.
    pose proof (rch_move _ _ _ _ H (MFinish D s Hst Hd)) as HR. wps; psimpl; rewrite Hst.
    + rewrite H0 in HR. cbn in HR. by rewrite <- (assoc_L (++)).
    + rewrite H0 in HR. exact HR.
  - wps; [|apply (IH (dn ++ [p])); [by rewrite <- (assoc_L (++))|done|done|]; intros q [?| ->%elem_of_list_singleton]%elem_of_app; auto].
    eapply (wp_call false _ _ (fun b s' ev' => reach s' ev' /\ x_st s' = x_st s /\ x_d s' = x_d s /\ done p s' = b /\
        (p = PLs \/ p = PLc /\ b = false -> forall c, x_cl s' !! c <> Some COperational) /\ (p = PRg -> x_rm s' = ∅))).
    + destruct p; cbn [handle_shutdown]; wps.
      * split_and!; try done. naive_solver.
      * wp_use (by apply notify_reach). intros _ s1 ev1 (H1 & F & HN). wps. split_and!; try done; apply F.
      * wp_use (by apply client_shutdown_reach). intros b s1 ev1 (H1 & F & Hb & HN). wps. split; [done|]. split; [apply F|]. split; [apply F|]. split; [done|]. split; [|done].
        intros [?|[_ Hf]]; [done|auto].
      * wp_use (by apply registry_shutdown_reach). intros b s1 ev1 (H1 & F1 & F2 & Hb & HN). split_and!; try done. naive_solver.
      * split_and!; try done. naive_solver.
      * split_and!; try done. naive_solver.
    + intros b s1 ev1 (H1 & F1 & F2 & Hb & HN & HR). rewrite <- F1 in Hst. wps.
      * unfold reaction_down. wps. apply (IH (dn ++ [p])); [by rewrite <- (assoc_L (++))| |done|].
        -- apply (rch_move _ _ _ _ H1 (MDownVote D s1 p true Hst Hb HN HR)).
        -- intros q [Hq| ->%elem_of_list_singleton]%elem_of_app; psimpl; [|apply updp_eq].
           destruct (decide (q = p)) as [->|?]; [apply updp_eq|]. rewrite updp_ne by done. rewrite F2. auto.
      * apply (rch_move _ _ _ _ H1 (MDownVote D s1 p false Hst Hb HN HR)).
Qed.
Lemma shutdown_continue_reach s ev : reach s ev -> wp false (shutdown_continue unl) (fun _ => reach) s ev.
Proof. intros H. unfold shutdown_continue. wps. apply bool_decide_eq_true in H0. by apply (shutdown_loop_reach _ []); [|done|done|intros p ?%elem_of_nil]. Qed.

(** ** Message handlers *)
Lemma w_dm_same s : w_dm s (x_dm s) = s.
Proof. by destruct s. Qed.
Lemma wp_del l s ev (Q : unit -> astore -> list aev -> Prop) :
  Q tt (w_dm s (del_all l (x_dm s))) ev -> wp false (each l (fun m => modify (fun s => w_dm s (delete m (x_dm s))))) Q s ev.
Proof.
  revert s. induction l as [|n l IH]; intros s HQ; cbn [each].
  - wps. cbn in HQ. by rewrite w_dm_same in HQ.
  - wps. apply IH. exact HQ.
Qed.

Lemma resume_reach s ev : reach s ev -> wp false (resume cfg reg_addr unl) (fun _ => reach) s ev.
Proof.
  intros H. unfold resume. wps. destruct (x_st s); wps; try done; [by apply init_continue_reach|by apply shutdown_continue_reach].
Qed.
Lemma user_reach u s ev : reach s ev -> (D -> usage s (OUser u)) -> wp false (user cfg reg_addr unl u) (fun _ => reach) s ev.
Proof.
  intros H HU. unfold user. wp_use (apply act_reach; [done|exact HU]). intros b s1 ev1 (H1 & _ & _). wps; [by apply resume_reach|done].
Qed.
Lemma continue_init_reach ok s ev : reach s ev -> wp false (continue_init cfg reg_addr ok) (fun _ => reach) s ev.
Proof.
  intros H. unfold continue_init. wps; [by apply init_continue_reach|]. rv H. by apply MInitErr.
Qed.
Lemma on_registration_reach n ok s ev : reach s ev -> wp false (on_registration cfg reg_addr n ok) (fun _ => reach) s ev.
Proof.
  intros H. unfold on_registration. destruct ok; wps.
  all: apply bool_decide_eq_true in H0.
  - apply continue_init_reach. apply (rch_move _ _ _ _ H (MRegOk D s n H0)).
  - apply (rch_move _ _ _ _ H (MRegOk D s n H0)).
  - unfold continue_init. wps. rewrite <- (assoc_L (++)). rv H. by apply MRegErr.
  - by rewrite orb_true_r in H1.
Qed.
Lemma post_discovery_reach n s ev :
  (forall t, x_dm s !! n = Some t -> reach (w_dm s (del_all (default [n] (t_addr t ≫= (x_al s !!.))) (x_dm s))) ev) ->
  wp false (post_discovery cfg reg_addr unl n true) (fun _ => reach) s ev.
Proof.
  intros HR. unfold post_discovery. wps. destruct (x_dm s !! n) as [t|] eqn:Et; [|by wps]. specialize (HR t eq_refl). destruct (t_addr t ≫= (x_al s !!.)) as [l|] eqn:E; cbn in HR.
  - eapply wp_bnd, wp_del. wps; [by apply continue_init_reach|by apply shutdown_continue_reach|done].
  - wps; [by apply continue_init_reach|by apply shutdown_continue_reach|done].
Qed.
Lemma post_discovery_err n s ev t :
  x_dm s !! n = Some t ->
  (let s' := w_dm s (del_all (default [n] (t_addr t ≫= (x_al s !!.))) (x_dm s)) in
   if bool_decide (x_st s = AInitializing) then x_ireq s = true -> reach s' (ev ++ [EvInitErr PRg]) else reach s' ev) ->
  wp false (post_discovery cfg reg_addr unl n false) (fun _ => reach) s ev.
Proof.
  intros Et HR. unfold post_discovery. wps. rewrite Et. cbn zeta in HR.
  destruct (t_addr t ≫= (x_al s !!.)) as [l|] eqn:E; cbn [default from_option id] in HR.
  - eapply wp_bnd, wp_del. wps.
    + psimpl_in Heqb. rewrite Heqb in HR. unfold continue_init. wps. by apply HR.
    + psimpl_in Heqb. rewrite Heqb in HR. by apply shutdown_continue_reach.
    + by rewrite orb_true_r in H.
  - wps.
    + psimpl_in Heqb. rewrite Heqb in HR. unfold continue_init. wps. by apply HR.
    + psimpl_in Heqb. rewrite Heqb in HR. by apply shutdown_continue_reach.
    + by rewrite orb_true_r in H.
Qed.
Lemma on_discovery_reach n res s ev : reach s ev -> x_lked s = true -> wp false (on_discovery cfg reg_addr unl n res) (fun _ => reach) s ev.
Proof.
  intros H HL. unfold on_discovery. wps. destruct (x_dm s !! n) as [t|] eqn:Heqo; [|by wps]. destruct res as [a|]; wps.
  - pose proof (rch_move _ _ _ _ H (MDiscOk D s n t a Heqo HL)) as HR. psimpl.
    apply bool_decide_eq_true in Heqb. destruct (x_al s !! a) as [l|] eqn:Ea; wps.
    + apply (rch_nil _ _ _ HR), (MAlias D _ a l n (set_addr t a)); [by right|apply lookup_insert|done].
    + wp_use (by apply link_reach). intros [] s1 ev1 (H1 & F & _ & _ & F6 & _ & _ & F9 & _). wps.
      assert (Hd : x_dm s1 !! n = Some (set_addr t a)) by (rewrite F6; apply lookup_insert).
      nl (MAlias D s1 a [] n (set_addr t a) (or_introl eq_refl) Hd eq_refl). done.
  - pose proof (rch_move _ _ _ _ H (MDiscOk D s n t a Heqo HL)) as HR. apply bool_decide_eq_false in Heqb. apply post_discovery_reach.
    intros t' Ht'. assert (Hp : forall l, x_st (w_dm s (<[n:=set_addr t a]> (x_dm s))) = AInitializing -> exists b, x_al (w_dm s (<[n:=set_addr t a]> (x_dm s))) !! b = Some l) by done.
    exact (rch_nil _ _ _ HR (MPost D _ _ (Hp _))).
  - apply (post_discovery_err _ _ _ t Heqo). cbn zeta.
    assert (Hl : exists a, default [n] (t_addr t ≫= (x_al s !!.)) = [n] \/ x_al s !! a = Some (default [n] (t_addr t ≫= (x_al s !!.)))).
    { destruct (t_addr t) as [a|] eqn:Ea; cbn; [|exists 0; by left]. exists a. destruct (x_al s !! a) eqn:El; cbn; auto. }
    destruct Hl as [a Hl]. case_bool_decide as Hst.
    + intros Hrq. pose proof (rch_move _ _ _ _ H (MDiscErr D s n a _ Hl (fun _ => Hrq))) as HR. rewrite bool_decide_true in HR by done.
      by rewrite <- (assoc_L (++)).
    + pose proof (rch_move _ _ _ _ H (MDiscErr D s n a _ Hl (fun h => match Hst h with end))) as HR. by rewrite bool_decide_false in HR by done.
Qed.
Lemma on_link_reach ok s ev : reach s ev -> wp false (on_link ok) (fun _ => reach) s ev.
Proof.
  intros H. unfold on_link. wps; [|by nl (MLinked D s)].
  eapply wp_call.
  { apply (wp_each false _ _ (fun s' ev' => reach s' ev' /\ x_lked s' = true)); [|split; [by nl (MLinked D s)|done]].
    intros [n x] s1 ev1 _ [H1 HL]. unfold request. wps. split; [|done]. rv H1. by apply MRegReq. }
  intros [] s1 ev1 [H1 HL]. wps.
  apply (wp_each_list false _ _ (fun r s' ev' => reach s' ev' /\ x_lked s' = true /\ todo r (x_dm s'))).
  - intros [n t] r s2 ev2 (H2 & HL2 & HT). pose proof (todo_here _ _ _ _ HT) as Hn. unfold do_discover, request. wps. split_and!; [|done|].
    + rv H2. apply (MDiscReq D s2 n t (t_delayed t)); done.
    + eapply todo_next; [exact HT|]. intros k Hk. by apply lookup_insert_ne.
  - split_and!; try done; apply todo_init.
  - by intros s2 ev2 (? & _).
Qed.
Lemma on_task_link_reach n ok s ev : reach s ev -> wp false (on_task_link cfg reg_addr unl n ok) (fun _ => reach) s ev.
Proof.
  intros H. unfold on_task_link. wps. destruct (x_dm s !! n) as [t|] eqn:Heqo; [|by wps]. destruct (t_addr t ≫= (x_al s !!.)) as [l|] eqn:E; wps.
  destruct (t_addr t) as [a|] eqn:Ea; [|done]. cbn in E.
  pose proof (rch_nil _ _ _ H (MPost D s l (fun _ => ex_intro _ a E))) as HR. destruct ok.
  - apply post_discovery_reach. intros t' Ht'. rewrite Ht' in Heqo. injection Heqo as ->. rewrite Ea. cbn. by rewrite E.
  - apply (post_discovery_err _ _ _ t Heqo). rewrite Ea. cbn. rewrite E. cbn. destruct (bool_decide (x_st s = AInitializing)); [|done]. intros Hrq. rv HR. by apply MInitErr.
Qed.
Lemma call_back_reach cb ok s ev : reach s ev -> wp false (call_back cfg reg_addr unl cb ok) (fun _ => reach) s ev.
Proof. intros H. destruct cb; cbn [call_back]; [by wps|by apply on_link_reach|by apply on_task_link_reach]. Qed.
Lemma on_link_response_reach a ok s ev : reach s ev -> wp false (on_link_response cfg reg_addr unl a ok) (fun _ => reach) s ev.
Proof.
  intros H. unfold on_link_response. wps. destruct (x_sv s !! a) as [x|] eqn:Heqo; [|by wps].
  assert (HS : is_Some (x_sv s !! a)) by eauto. destruct ok; cbn [negb when]; wps.
  - wp_use (by apply call_back_reach). intros [] s1 ev1 H1. wps.
    all: apply bool_decide_eq_true in Heqb; pose proof (rch_move _ _ _ _ H1 (MLinkUp D s1 a (sr_cb x) Heqb)) as HR.
    + by apply init_continue_reach.
    + done.
  - wp_use (apply call_back_reach; rv H; by apply MLinkErr). intros [] s1 ev1 H1. wps; [|done]. rv H1. by apply MInitFail.
Qed.
Lemma forget_link_reach a s ev : reach s ev -> wp false (forget_link unl a) (fun _ => reach) s ev.
Proof.
  intros H. unfold forget_link. wps. destruct (x_sv s !! a); wps; [|done].
  wp_use (apply forget_links_reach; by nl (MQueue D s _)). intros b s1 ev1 (H1 & _ & _). wps; [by apply shutdown_continue_reach| |done].
  rv H1. apply MDoShutdown.
Qed.
Lemma on_link_request_reach c r o s ev : reach s ev -> wp false (on_link_request c r o) (fun _ => reach) s ev.
Proof.
  intros H. unfold on_link_request. wps; rewrite <- ?(assoc_L (++)).
  - rv H. apply MRefuse. by apply N.ltb_lt.
  - rv H. apply MAlready; [by apply N.ltb_ge|by apply bool_decide_eq_true in Heqb0].
  - apply andb_true_iff in Heqb1 as [-> ?%N.ltb_lt]. apply bool_decide_eq_false in Heqb0. rv H. apply MPend; [done|].
    by apply eq_None_not_Some.
  - apply bool_decide_eq_false in Heqb0. apply N.ltb_ge in Heqb. rv H. apply MAccept; [done| |by apply eq_None_not_Some].
    intros ->. cbn in Heqb1. apply N.ltb_ge in Heqb1. by destruct (x_st s).
Qed.
Lemma down_resume_reach s ev : reach s ev -> wp false (down_resume unl) (fun _ => reach) s ev.
Proof. intros H. unfold down_resume. wps; [by apply shutdown_continue_reach|done]. Qed.
Lemma on_unlink_notify_reach c s ev : reach s ev -> wp false (on_unlink_notify unl c) (fun _ => reach) s ev.
Proof.
  intros H. unfold on_unlink_notify. wps. destruct (x_cl s !! c) as [x|] eqn:E; wps.
  - assert (HS : is_Some (x_cl s !! c)) by eauto.
    pose proof (rch_move _ _ _ _ H (MGone D s c (x_pend s) HS (fun _ _ h => h))) as HR.
    destruct x; wps; [by apply down_resume_reach..|]. unfold discard_request. wps. apply down_resume_reach.
    rv H. apply (MGone D s); [done|]. by intros id' q [_ ?]%lookup_delete_Some.
  - rv H. by apply MNoClient.
Qed.
Lemma on_unlink_response_reach c ok s ev : reach s ev -> wp false (on_unlink_response unl c ok) (fun _ => reach) s ev.
Proof.
  intros H. unfold on_unlink_response. wps.
  - apply andb_true_iff in Heqb as [_ ?]. rv H. by apply MShutErr.
  - apply bool_decide_eq_true in H1. apply down_resume_reach. rv H. by apply MUnlinked.
Qed.
Lemma respond_reach q r s ev : reach s ev -> (forall n, q = QDisc n -> x_lked s = true) ->
  wp false (respond cfg reg_addr unl q r) (fun _ => reach) s ev.
Proof.
  intros H HL. destruct q; cbn [respond]; [by apply on_link_response_reach|by apply on_registration_reach|by eapply on_discovery_reach; eauto|by apply on_unlink_response_reach].
Qed.

Lemma aprog_kept o s ev : reach s ev -> (D -> usage s o) -> wp false (aprog cfg reg_addr unl o) (fun _ => reach) s ev.
Proof.
  intros H HU. unfold aprog. wps; [done|]. apply bool_decide_eq_false in Heqb. destruct o; cbn [astep_live]; wps.
  - apply init_continue_reach. rv H. by apply MInitReq.
  - rv H. by apply MInitReq.
  - by apply user_reach.
  - destruct (x_pend s !! id) as [q|] eqn:E; wps; [|done]. apply respond_reach; [by nl (MPendDel D s id)|].
    intros n ->. destruct (reach_lked D s ev (rch_sub _ _ H)) as (HL & _). exact (HL _ _ E).
  - destruct (x_pend s !! id) as [q|] eqn:E; wps; [|done]. by nl (MTimeout D s id q E).
  - destruct (x_late s) as [|q l] eqn:E; wps; [done|]. apply respond_reach; [by nl (MLate D s q l E)|].
    intros n ->. destruct (reach_lked D s ev (rch_sub _ _ H)) as (_ & HL & _). apply (HL n). rewrite E. by left.
  - by apply on_link_request_reach.
  - by apply on_unlink_notify_reach.
  - by apply forget_link_reach.
  - apply init_continue_reach. nl (MSubOff D _). by nl (MTrack D s _).
  - by nl (MTrack D s _).
  - apply bool_decide_eq_true in H0. unfold set_state. wps.
    + rewrite H0. pose proof (rch_move _ _ _ _ H (MStart D s H0)) as HR. eapply wp_call.
      { apply (wp_each_list false _ _ (fun r s' ev' => reach s' ev' /\ x_st s' = AOperational /\ todo r (x_cl s') /\ forall c r0, x_cl s' !! c = Some (CPending r0) -> (c, CPending r0) ∈ r)
          (fun _ s' ev' => reach s' ev' /\ forall c r0, x_cl s' !! c <> Some (CPending r0))).
        - intros [c x] r s1 ev1 (H2 & Hst & HT & HP). pose proof (todo_here _ _ _ _ HT) as Hc. unfold answer_pending. destruct x; wps.
          + split_and!; [rv H2; by apply MAnswer|done|eapply todo_next; [exact HT|]; intros k Hk; by apply lookup_insert_ne|].
            psimpl. intros c' r1 [[_ ?]|[Hn Hc']]%lookup_insert_Some; [done|]. specialize (HP _ _ Hc'). apply elem_of_cons in HP as [[= ?]|?]; [congruence|done].
          + split_and!; [done|done|by eapply todo_next|]. intros c' r1 Hc'. specialize (HP _ _ Hc'). by apply elem_of_cons in HP as [[= ?]|?].
          + split_and!; [done|done|by eapply todo_next|]. intros c' r1 Hc'. specialize (HP _ _ Hc'). by apply elem_of_cons in HP as [[= ?]|?].
        - split; [done|]. split; [done|]. split; [apply todo_init|]. intros c r0 Hc. by apply elem_of_map_to_list.
        - intros s1 ev1 (H2 & _ & _ & HP). split; [done|]. intros c r0 Hc. by apply HP, elem_of_nil in Hc. }
      intros [] s1 ev1 [H2 HP]. wps. by nl (MStarted D s1 HP).
    + rewrite H0. apply (rch_move _ _ _ _ H (MStart D s H0)).
  - done.
  - apply N.ltb_lt in H0. unfold set_state. wps. apply shutdown_continue_reach. psimpl. rv H. by apply MDown.
  - done.
  - apply down_resume_reach. by nl (MPts D s).
Qed.
End reach.
Lemma aprog_reach cfg reg_addr unl (D : Prop) (HD : D -> usage_cfg cfg) o s ev : reach D s ev -> (D -> usage s o) -> wp false (aprog cfg reg_addr unl o) (fun _ => reach D) s ev.
Proof. apply aprog_kept; [done| |done]. intros *. apply reach_move. Qed.

(** The states and traces of disciplined runs are reachable by moves; of all runs,
    when nothing is asked of the usage. *)
Lemma arun_reach cfg reg_addr unl ops s ev :
  usage_cfg cfg -> guarded (astep cfg reg_addr unl) usage ainit ops -> run (astep cfg reg_addr unl) ainit ops = Ok (s, ev) -> reach True s ev.
Proof.
  intros Hc Hg Hr. apply (wp_run (aprog cfg reg_addr unl) usage (reach True)) with (ops := ops) (s := ainit) (ev := []); [|by constructor|done|done].
  intros o s1 ev1 Hu H1. by apply aprog_reach.
Qed.
Lemma arun_reach_any cfg reg_addr unl ops s ev : run (astep cfg reg_addr unl) ainit ops = Ok (s, ev) -> reach False s ev.
Proof.
  intros Hr. apply (wp_run (aprog cfg reg_addr unl) (fun _ _ => True) (reach False)) with (ops := ops) (s := ainit) (ev := []); [|by constructor|apply guarded_true|done].
  intros o s1 ev1 Hu H1. by apply aprog_reach.
Qed.
