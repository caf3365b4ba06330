(** Prudent use of an actor breaks no assertion: the functions. *)
From stdpp Require Import base list gmap.
From Verif Require Import Base Prog ActorModel ActorSpec ActorMoves ActorReach ActorSafeSpec ActorSafe.
Open Scope N_scope.
Local Open Scope prog_scope.

Ltac chk := first [apply wp_bnd, wp_check; [intros _|intros _] | apply wp_check; [intros _|intros _]]; cbv beta.
Ltac wpc := repeat first [wp1|chk].

Section run.
Context (cfg : plug -> list uact) (ra : N) (unl : bool) (HC : prudent_cfg ra cfg).
Notation sane := (sane ra).

(** ** Initialization *)
Lemma sane_i ex s f : sane ex s -> f PLc = true \/ x_conf s PLc = true -> sane ex (w_i s f).
Proof.
  intros H Hf. open_sane H. split_sane; try assumption. intros Hst Hc. destruct (R4 Hst Hc) as (? & ? & ? & ?). split_and!; try done.
  cbn in *. destruct Hf as [?|?]; [done|congruence].
Qed.
Lemma sane_conf ex s p : sane ex s -> (p = PRg -> x_conf s PLc = true) -> sane ex (w_conf s (updp (x_conf s) p true)).
Proof.
  intros H Hp. open_sane H. split_sane; try assumption.
  - cbn. unfold updp. destruct (decide _); [done|exact R3].
  - intros Hst. cbn. unfold updp. destruct (decide (PLc = p)) as [|Hn]; [done|]. intros Hc. destruct (R4 Hst Hc) as (? & ? & ? & ?). split_and!; try done.
    destruct (decide (PRg = p)) as [<-|]; [|done]. rewrite Hp in Hc; done.
Qed.
Lemma link_ok s ev a o cb (Q : unit -> astore -> list aev -> Prop) : x_sv s !! a = None ->
  Q tt (w_sv (w_req (w_i s (updp (x_i s) PLc true)) (QLink a)) (<[a := SRec cb (SLinking (x_next s))]> (x_sv s))) (ev ++ [EvLink a o (x_next s)]) ->
  wp true (link a o cb) Q s ev.
Proof. intros Ha HQ. unfold link, reaction_init, request. wpc; [by rewrite bool_decide_true|]. exact HQ. Qed.

Definition same (s s' : astore) : Prop := x_st s' = x_st s /\ x_ireq s' = x_ireq s /\ x_conf s' = x_conf s.
Lemma same_refl s : same s s.
Proof. done. Qed.
Lemma same_trans s1 s2 s3 : same s1 s2 -> same s2 s3 -> same s1 s3.
Proof. intros (A1 & A2 & A3) (B1 & B2 & B3). split_and!; congruence. Qed.

Lemma sane_lking ex s : sane ex s -> x_conf s PRg = true -> sane ex (w_lking s true).
Proof.
  intros H Hc. open_sane H. split_sane; try assumption; [|done|].
  - intros a id Ha He. by destruct (R1 a id Ha He) as (? & ? & ?).
  - cbn. congruence.
Qed.
Lemma link_registry_ok ex s ev : sane ex s -> x_lking s = false -> x_lked s = false -> x_conf s PLc = true -> x_conf s PRg = true ->
  wp true (link_registry ra) (fun _ s' _ => sane ex s' /\ same s s' /\ x_lked s' = false /\ x_rm s' = x_rm s /\ x_dm s' = x_dm s) s ev.
Proof.
  intros H H1 H2 H3 H4. pose proof H as (_ & _ & _ & _ & _ & _ & (_ & R2 & _)). destruct (R2 H1 H2) as [R5 R6].
  unfold link_registry. wps. apply link_ok; [done|]. split; [|done]. apply (sane_link ra ex (w_i (w_lking s true) (updp (x_i s) PLc true)) ra); [|done|done|].
  - apply sane_i; [by apply sane_lking|left; apply updp_eq].
  - right. done.
Qed.
Lemma sane_reg ex s n : sane ex s -> x_conf s PRg = true -> sane ex (w_rm s (<[n := RRegistering]> (x_rm s))).
Proof.
  intros H Hc. open_sane H. split_sane; try assumption.
  - intros Hst m Hm. cbn. destruct (decide (m = n)) as [->|Hne]; [rewrite lookup_insert; eauto|]. rewrite lookup_insert_ne by done. by apply A1.
  - cbn. congruence.
Qed.
Lemma sane_disc ex s n d o : sane ex s -> x_conf s PRg = true -> x_dm s !! n = None -> sane ex (w_dm s (<[n := Task d o TPassive None]> (x_dm s))).
Proof.
  intros H Hc Hn. open_sane H. split_sane; try assumption.
  - intros Hst b m id Hb He. destruct (K Hst b m id Hb He) as (l' & H1 & H2 & H3). exists l'. split; [done|]. split; [done|].
    intros k Hk. destruct (H3 k Hk) as (t' & H4 & H5). exists t'. split; [|done]. cbn. rewrite lookup_insert_ne; [done|]. congruence.
  - intros Hst m Hm. cbn. rewrite lookup_insert_ne; [by apply A2|]. intros <-. destruct (A2 Hst _ Hm) as (? & ? & _). congruence.
  - intros HL m t. cbn. intros [[_ <-]|[_ ?]]%lookup_insert_Some; [done|by eapply A4].
  - cbn. congruence.
Qed.

(** What is left to do of a configuration. *)
Definition todo_links (p : plug) (r : list uact) (s : astore) : Prop :=
  p = PLc -> NoDup (omap link_of r) /\ (forall a, a ∈ omap link_of r -> x_sv s !! a = None /\ a ∉ x_uq s /\ a <> ra).
Definition todo_names (p : plug) (r : list uact) (s : astore) : Prop :=
  p = PRg -> x_lked s = false /\ NoDup (omap reg_of r) /\ NoDup (omap disc_of r) /\
    (forall n, n ∈ omap reg_of r -> x_rm s !! n = None) /\ (forall n, n ∈ omap disc_of r -> x_dm s !! n = None).
Lemma act_ok p ex u r s ev : p ∈ init_order -> (link_act u -> p = PLc) -> (names_act u -> p = PRg) -> ~ release_act u ->
  sane ex s -> x_st s = AInitializing -> x_conf s PLc = true -> x_conf s p = true -> todo_links p (u :: r) s -> todo_names p (u :: r) s ->
  wp true (act ra u) (fun _ s' _ => sane ex s' /\ same s s' /\ todo_links p r s' /\ todo_names p r s') s ev.
Proof.
  intros Hp Hl Hn Hr H Hst Hc Hcp TL TN. destruct u; cbn [act].
  - specialize (Hl I). subst p. destruct (TL eq_refl) as [T1 T2]. cbn in T1, T2. apply NoDup_cons in T1 as [T0 T1]. destruct (T2 a) as (E1 & E2 & E3); [by left|].
    apply wp_bnd, link_ok; [done|]. wps. split_and!.
    + apply (sane_link ra ex (w_i s (updp (x_i s) PLc true)) a); [|done|done|by left]. apply sane_i; [done|left; apply updp_eq].
    + done.
    + intros _. split; [done|]. intros b Hb. destruct (T2 b) as (F1 & F2 & F3); [by right|]. cbn. rewrite lookup_insert_ne; [done|]. by intros <-.
    + done.
  - specialize (Hn I). subst p. destruct (TN eq_refl) as (T0 & T1 & T2 & T3 & T4). cbn in T1, T3. apply NoDup_cons in T1 as [T1 T5].
    unfold register_name. wpc; [by rewrite bool_decide_true by (apply T3; by left)|by rewrite T0| |].
    + apply negb_true_iff in H0. wp_use (by apply link_registry_ok). intros [] s1 ev1 (H1 & F & F1 & F2 & F3). wps. split_and!.
      * apply sane_reg; [done|]. destruct F as (_ & _ & ->). done.
      * exact F.
      * done.
      * intros _. cbn. rewrite F1, F2, F3. split_and!; try done. intros m Hm. rewrite lookup_insert_ne; [apply T3; by right|]. by intros <-.
    + split_and!; [by apply sane_reg|done|done|]. intros _. cbn. rewrite T0. split_and!; try done. intros m Hm. rewrite lookup_insert_ne; [apply T3; by right|]. by intros <-.
  - specialize (Hn I). subst p. destruct (TN eq_refl) as (T0 & T1 & T2 & T3 & T4). cbn in T2, T4. apply NoDup_cons in T2 as [T2 T5].
    assert (Hdn : x_dm s !! n = None) by (apply T4; by left).
    unfold discover_name. wpc; [by rewrite bool_decide_true|by rewrite T0| |].
    + apply negb_true_iff in H0. wp_use (by apply link_registry_ok). intros [] s1 ev1 (H1 & F & F1 & F2 & F3). wps. split_and!.
      * apply sane_disc; [done| |by rewrite F3]. destruct F as (_ & _ & ->). done.
      * exact F.
      * done.
      * intros _. cbn. rewrite F1, F2, F3. split_and!; try done. intros m Hm. rewrite lookup_insert_ne; [apply T4; by right|]. by intros <-.
    + split_and!; [by apply sane_disc|done|done|]. intros _. cbn. rewrite T0. split_and!; try done. intros m Hm. rewrite lookup_insert_ne; [apply T4; by right|]. by intros <-.
  - unfold acquire, reaction_init, reaction_down. wps.
    + split_and!; [apply (sane_i _ (w_res s _)); [exact H|by right]|done|exact TL|exact TN].
    + split_and!; [exact H|done|exact TL|exact TN].
    + split_and!; [exact H|done|exact TL|exact TN].
  - done.
  - wps. split_and!; [exact H|done|exact TL|exact TN].
Qed.
Lemma configure_ok p ex s ev : p ∈ init_order -> sane ex s -> x_st s = AInitializing -> x_conf s PLc = true -> x_conf s p = true ->
  (p = PLc -> x_sv s = ∅ /\ x_uq s = []) -> (p = PRg -> x_lked s = false /\ x_rm s = ∅ /\ x_dm s = ∅) ->
  wp true (configure cfg ra p) (fun _ s' _ => sane ex s' /\ same s s') s ev.
Proof.
  intros Hp H Hst Hc Hcp HL HN. unfold configure.
  destruct HC as ((P1 & P2 & P3) & (P4 & P5 & P6) & P7).
  assert (HA : forall u, u ∈ cfg p -> (link_act u -> p = PLc) /\ (names_act u -> p = PRg) /\ ~ release_act u).
  { intros u Hu. rewrite Forall_forall in P1, P4, P7.
    assert (p = PLc \/ p = PRg \/ p = PRs \/ p = PSt) as [-> | [-> | [-> | ->]]] by (apply elem_of_list_In in Hp; cbn in Hp; naive_solver).
    - destruct (P1 u Hu). done.
    - destruct (P4 u Hu). done.
    - destruct (P7 u) as (? & ? & ?); [apply elem_of_app; by left|done].
    - destruct (P7 u) as (? & ? & ?); [apply elem_of_app; by right|done]. }
  apply (wp_each_list true (cfg p) _ (fun r s' _ => (forall u, u ∈ r -> u ∈ cfg p) /\ sane ex s' /\ same s s' /\ todo_links p r s' /\ todo_names p r s')).
  - intros u r s1 ev1 (Hin & H1 & (F1 & F2 & F3) & TL & TN). destruct (HA u) as (A1 & A2 & A3); [apply Hin; by left|].
    wp_use (apply (act_ok p ex u r); try done; congruence). intros _ s2 ev2 (H2 & F & TL2 & TN2). wps. split_and!; try done; [intros v Hv; apply Hin; by right|].
    by apply (same_trans s s1).
  - split_and!; try done.
    + intros ->. destruct (HL eq_refl) as [E1 E2]. split; [done|]. intros a Ha. rewrite E1, E2. split; [apply lookup_empty|]. split; [apply not_elem_of_nil|]. by intros ->.
    + intros ->. destruct (HN eq_refl) as (E1 & E2 & E3). rewrite E2, E3. split_and!; try done; intros; apply lookup_empty.
  - intros s1 ev1 (_ & H1 & F & _). done.
Qed.
Lemma configure_once_ok p ex s ev : p ∈ init_order -> sane ex s -> x_st s = AInitializing -> (p <> PLc -> x_conf s PLc = true) ->
  wp true (configure_once cfg ra p) (fun _ s' _ => sane ex s' /\ x_st s' = x_st s /\ x_ireq s' = x_ireq s /\ x_conf s' PLc = true) s ev.
Proof.
  intros Hp H Hst Hc. unfold configure_once. wps.
  - apply negb_true_iff in H0. pose proof H as (_ & _ & _ & _ & _ & _ & (_ & _ & R3 & R4)).
    eapply wp_mono; [apply (configure_ok p ex); [done|..]|].
    + apply sane_conf; [done|]. intros ->. by apply Hc.
    + done.
    + cbn. unfold updp. destruct (decide (PLc = p)); [done|]. apply Hc. congruence.
    + cbn. apply updp_eq.
    + intros ->. cbn. by destruct (R4 Hst H0) as (? & ? & _).
    + intros ->. cbn. by destruct (R3 H0) as (? & ? & ? & ?).
    + intros [] s1 ev1 (H1 & F1 & F2 & F3). split_and!; try done. rewrite F3. cbn. unfold updp. destruct (decide (PLc = p)); [done|]. apply Hc. congruence.
  - split_and!; try done. destruct (decide (p = PLc)) as [->|]; [|by apply Hc]. by apply negb_false_iff in H0.
Qed.
Lemma handle_init_ok p ex s ev : p ∈ init_order -> sane ex s -> x_st s = AInitializing -> (p <> PLc -> x_conf s PLc = true) ->
  wp true (handle_init cfg ra p) (fun _ s' _ => sane ex s' /\ x_st s' = x_st s /\ x_ireq s' = x_ireq s /\ x_conf s' PLc = true) s ev.
Proof.
  intros Hp H Hst Hc.
  assert (p = PLc \/ p = PRg \/ p = PRs \/ p = PSt) as [-> | [-> | [-> | ->]]] by (apply elem_of_list_In in Hp; cbn in Hp; naive_solver); cbn [handle_init].
  1-3: wp_use (by apply (configure_once_ok _ ex)); intros [] s1 ev1 (H1 & F1 & F2 & F3); wps; done.
  wps.
  - wp_use (by apply (configure_once_ok _ ex)). intros [] s1 ev1 (H1 & F1 & F2 & F3). unfold reaction_init. wps; [|done]. by split_and!.
  - split_and!; try done. by apply Hc.
Qed.
Definition settled (ex : option N) (s : astore) : Prop := sane ex s /\ (x_ireq s = true -> x_st s = AInitializing).
Lemma init_loop_ok l ex s ev : (forall p, p ∈ l -> p ∈ init_order) -> sane ex s -> x_st s = AInitializing -> (x_conf s PLc = true \/ exists r, l = PLc :: r /\ PLc ∉ r) ->
  wp true (init_loop cfg ra l) (fun _ s' _ => settled ex s') s ev.
Proof.
  revert s ev. induction l as [|p l IH]; intros s ev Hl H Hst Hc; cbn [init_loop].
  - unfold init_finish, set_state. wps. split; [|done]. apply (sane_st ra ex (w_ireq (w_prog s false) false)); done.
  - assert (Hc' : p <> PLc -> x_conf s PLc = true) by (destruct Hc as [?|(r & [= -> ->] & _)]; done).
    wp1. wp1.
    + wp_use (apply (handle_init_ok p ex); [apply Hl; by left|done|done|done]). intros b s1 ev1 (H1 & F1 & F2 & F3). wps.
      * unfold reaction_init. wps. apply IH; [|by apply sane_i; [|right]|cbn; congruence|by left]. intros q Hq. apply Hl. by right.
      * split; [exact H1|]. cbn. congruence.
    + apply IH; [intros q Hq; apply Hl; by right|done|done|]. left. destruct Hc as [?|(r & [= -> ->] & _)]; [done|].
      destruct (x_conf s PLc) eqn:E; [done|]. pose proof H as (_ & _ & _ & _ & _ & _ & (_ & _ & _ & R4)). destruct (R4 Hst E) as (_ & _ & _ & ?). congruence.
Qed.
Lemma init_continue_ok ex s ev : sane ex s -> in_init s -> wp true (init_continue cfg ra) (fun _ s' _ => settled ex s') s ev.
Proof.
  intros H [Hst Hi]. unfold init_continue. wpc; [by apply bool_decide_eq_true|done|]. apply init_loop_ok; [done|done|done|]. right. exists [PRg; PRs; PSt]. split; [done|].
  intros Hin. apply elem_of_list_In in Hin. cbn in Hin. naive_solver.
Qed.

(** ** Shutdown *)
Definition going (s : astore) : Prop := sane None s /\ x_st s = AShuttingDown.
Lemma notify_ok s ev : going s -> wp true notify_shutdown (fun _ s' _ => going s') s ev.
Proof.
  intros H. unfold notify_shutdown. wps.
  apply (wp_each_list true _ _ (fun r s' _ => going s' /\ todo r (x_cl s'))).
  - intros [c x] r s1 ev1 ([H1 Hst] & HT). pose proof (todo_here _ _ _ _ HT) as Hc. destruct x; cbn [notify_client].
    + wps. split; [done|]. by eapply todo_next.
    + unfold request. wps. split; [split; [|done]|].
      * by apply (sane_ask ra s1 c).
      * eapply todo_next; [exact HT|]. intros k Hk. by apply lookup_insert_ne.
    + wps. split; [done|]. by eapply todo_next.
  - split; [done|]. apply todo_init.
  - by intros s1 ev1 [? _].
Qed.
Lemma forget_all_ok l s ev : sane None s -> (forall a, a ∈ l -> a ∈ x_uq s) ->
  wp true (forget_all unl l) (fun _ s' _ => sane None s' /\ x_st s' = x_st s /\ x_cl s' = x_cl s) s ev.
Proof.
  revert s ev. induction l as [|a l IH]; intros s ev H Hl; cbn [forget_all]; [by wps|]. unfold forget_one. wps. destruct (x_sv s !! a) as [x|] eqn:E; wps.
  - wp_use (apply IH). { apply (sane_forget ra None); [done|by right|]. pose proof H as (_ & (L1 & _ & L3 & _) & _). intros (cb & id & Ha)%L1. apply L3 in Ha; [done|]. apply Hl. by left. }
    { intros b Hb. apply Hl. by right. }
    intros b s1 ev1 (H1 & F1 & F2). by wps.
  - wp_use (apply IH; [done|]; intros b Hb; apply Hl; by right). intros b s1 ev1 (H1 & F1 & F2). by wps.
Qed.
Lemma forget_links_ok s ev : sane None s -> wp true (forget_links unl) (fun _ s' _ => sane None s' /\ x_st s' = x_st s) s ev.
Proof. intros H. unfold forget_links. wps; [|done]. wp_use (by apply forget_all_ok). intros b s1 ev1 (? & ? & _). done. Qed.
Lemma leave_ok s ev a x : going s -> x_sv s !! a = Some x -> wp true (leave_server a x) (fun _ s' _ => going s' /\ x_sv s' = delete a (x_sv s)) s ev.
Proof.
  intros [H Hst] Ha. pose proof H as (T & (L1 & L2 & L3 & _) & _ & D & _). unfold leave_server, discard_request. wps. destruct x as [cb [id|]]; cbn [sr_st].
  - assert (Hp : x_pend s !! id = Some (QLink a)) by (destruct (L2 a cb id Ha) as [?|Hl]; [done|done|by destruct (D Hst a)]).
    wpc; [by rewrite bool_decide_true by eauto|]. split; [|done]. split; [|done]. destruct (sane_resp ra s id _ H Hp) as [H1 H2]. by apply (sane_forget ra (Some a) (w_pend s (delete id (x_pend s)))); [|left|].
  - wps. split; [|done]. split; [|done]. apply (sane_forget ra None); [done|by right|]. intros (? & ? & ?)%L1. congruence.
Qed.
Lemma client_shutdown_ok s ev : going s -> wp true (client_shutdown unl) (fun _ s' _ => going s') s ev.
Proof.
  intros [H Hst]. unfold client_shutdown. wps; [done|]. wp_use (by apply forget_links_ok). intros _ s1 ev1 (H1 & F1). rewrite Hst in F1. wps.
  - eapply wp_call; [apply (wp_each_list true _ _ (fun r s' _ => going s' /\ todo r (x_sv s')) (fun _ s' _ => going s'))|].
    + intros [a x] r s2 ev2 [H2 HT]. wp_use (apply leave_ok; [done|by eapply todo_here]). intros [] s3 ev3 [H3 E]. split; [done|]. eapply todo_next; [exact HT|].
      intros k Hk. rewrite E. by apply lookup_delete_ne.
    + split; [done|]. apply todo_init.
    + by intros s2 ev2 [? _].
    + intros [] s2 ev2 H2. by wps.
  - wp_use (by apply notify_ok). intros [] s2 ev2 H2. by wps.
Qed.
Lemma sane_quiet s r d l : going s -> (x_rm s = ∅ -> r = ∅) -> (x_dm s = ∅ -> d = ∅) -> (forall n t, d !! n = Some t -> exists t', x_dm s !! n = Some t' /\ t_addr t = t_addr t') ->
  going (w_al (w_dm (w_rm s r) d) l).
Proof.
  intros [H Hst] Hr Hd Ht. split; [|done]. open_sane H. split_sane; try assumption; try (by cbn; congruence).
  - intros E. cbn in E. congruence.
  - intros HL n t Hn. cbn in Hn. apply Ht in Hn as (t' & Hn & ->). by eapply A4.
  - intros Hc. destruct (R3 Hc) as (? & ? & ? & ?). cbn. auto.
Qed.
Lemma registry_shutdown_ok s ev : going s -> wp true registry_shutdown (fun _ s' _ => going s') s ev.
Proof.
  intros H. unfold registry_shutdown. wps.
  eapply wp_call; [apply (wp_each true _ _ (fun s' _ => going s')); [|done]|].
  { intros [n x] s1 ev1 _ H1. by wps. }
  intros [] s1 ev1 H1. wps. assert (H2 : going (w_rm s1 ∅)).
  { replace (w_rm s1 ∅) with (w_al (w_dm (w_rm s1 ∅) (x_dm s1)) (x_al s1)) by by destruct s1. apply sane_quiet; eauto. }
  eapply wp_call; [apply (wp_each_list true _ _ (fun r s' _ => going s' /\ todo r (x_dm s')) (fun _ s' _ => going s'))|].
  - intros [n t] r s2 ev2 [H3 HT]. pose proof (todo_here _ _ _ _ HT) as Hn. unfold cancel_task. wps.
    + split.
      * set (d := <[n:=_]> _). replace (w_dm s2 d) with (w_al (w_dm (w_rm s2 (x_rm s2)) d) (x_al s2)) by by destruct s2. apply sane_quiet; [done|done| |].
        -- intros E. by rewrite E, lookup_empty in Hn.
        -- intros m t'. unfold d. intros [[<- <-]|[_ ?]]%lookup_insert_Some; eauto.
      * eapply todo_next; [exact HT|]. intros k Hk. by apply lookup_insert_ne.
    + split.
      * set (d := delete _ _). replace (w_dm s2 d) with (w_al (w_dm (w_rm s2 (x_rm s2)) d) (x_al s2)) by by destruct s2. apply sane_quiet; [done|done| |].
        -- intros E. by rewrite E, lookup_empty in Hn.
        -- intros m t'. unfold d. intros [_ ?]%lookup_delete_Some. eauto.
      * eapply todo_next; [exact HT|]. intros k Hk. by apply lookup_delete_ne.
  - split; [done|]. apply todo_init.
  - by intros s2 ev2 [? _].
  - intros [] s2 ev2 H3. wps; [|done]. replace (w_al s2 ∅) with (w_al (w_dm (w_rm s2 (x_rm s2)) (x_dm s2)) ∅) by by destruct s2. apply sane_quiet; eauto.
Qed.
Definition fine (s : astore) : Prop := x_st s = AShutDown \/ sane None s.
Lemma shutdown_loop_ok l s ev : going s -> wp true (shutdown_loop unl l) (fun _ s' _ => fine s') s ev.
Proof.
  revert s ev. induction l as [|p l IH]; intros s ev H; cbn [shutdown_loop].
  - unfold shutdown_finish, set_state. wps; by left.
  - wps; [|by apply IH].
    eapply (wp_call true _ _ (fun _ s' _ => going s')).
    + destruct p; cbn [handle_shutdown]; wps; try done.
      * wp_use (by apply notify_ok). intros [] s1 ev1 H1. by wps.
      * by apply client_shutdown_ok.
      * by apply registry_shutdown_ok.
    + intros b s1 ev1 H1. wps; [|by right; apply H1]. unfold reaction_down. wps. by apply IH.
Qed.
Lemma shutdown_continue_ok s ev : going s -> wp true (shutdown_continue unl) (fun _ s' _ => fine s') s ev.
Proof. intros H. unfold shutdown_continue. wpc; [by apply bool_decide_eq_true, H|]. by apply shutdown_loop_ok. Qed.
Lemma down_resume_ok s ev : sane None s -> wp true (down_resume unl) (fun _ s' _ => fine s') s ev.
Proof. intros H. unfold down_resume. wps; [|by right]. apply bool_decide_eq_true in H0. by apply shutdown_continue_ok. Qed.

(** ** Messages *)
Lemma w_dm_same s : w_dm s (x_dm s) = s.
Proof. by destruct s. Qed.
Lemma del_ok l s ev (Q : unit -> astore -> list aev -> Prop) :
  Q tt (w_dm s (del_all l (x_dm s))) ev -> wp true (each l (fun m => modify (fun s => w_dm s (delete m (x_dm s))))) Q s ev.
Proof.
  revert s. induction l as [|n l IH]; intros s HQ; cbn [each].
  - wps. cbn in HQ. by rewrite w_dm_same in HQ.
  - wps. apply IH. exact HQ.
Qed.
Lemma continue_init_ok ok ex s ev : sane ex s -> in_init s -> wp true (continue_init cfg ra ok) (fun _ s' _ => settled ex s') s ev.
Proof. intros H Hi. unfold continue_init. wpc; [apply Hi|by apply init_continue_ok|]. split; [done|]. intros _. apply Hi. Qed.
Lemma on_registration_ok n ok s ev : sane None s -> in_init s -> ~ out s (QReg n) -> is_Some (x_rm s !! n) -> wp true (on_registration cfg ra n ok) (fun _ s' _ => settled None s') s ev.
Proof.
  intros H Hi Ho Hs. unfold on_registration.
  assert (H1 : sane None (w_rm s (if ok then <[n := ROperational]> (x_rm s) else delete n (x_rm s)))).
  { apply (sane_rm ra None s n); try done. intros m Hm. destruct ok; [by apply lookup_insert_ne|by apply lookup_delete_ne]. }
  wpc; [by apply bool_decide_eq_true|by apply continue_init_ok|]. split; [exact H1|]. intros _. apply Hi.
Qed.
Lemma post_discovery_ok n ok ex t s ev : sane ex s -> in_init s -> x_dm s !! n = Some t ->
  (forall m, m ∈ default [n] (t_addr t ≫= (x_al s !!.)) -> ~ out s (QDisc m)) ->
  (forall a k id l, x_sv s !! a = Some (SRec (CbTask k) (SLinking id)) -> ex <> Some a -> x_al s !! a = Some l -> forall m, m ∈ l -> m ∉ default [n] (t_addr t ≫= (x_al s !!.))) ->
  wp true (post_discovery cfg ra unl n ok) (fun _ s' _ => settled ex s') s ev.
Proof.
  intros H Hi Hn Ho Hd. unfold post_discovery. wp1. rewrite Hn.
  assert (H1 : sane ex (w_dm s (del_all (default [n] (t_addr t ≫= (x_al s !!.))) (x_dm s)))) by (apply sane_drop; [done|by intros _|intros _; exact Hd]).
  destruct (t_addr t ≫= (x_al s !!.)) as [l|]; cbn [default from_option id] in H1.
  - apply wp_bnd, del_ok. wps; [by apply continue_init_ok| |].
    + apply bool_decide_eq_false in Heqb. by destruct Hi.
    + split; [exact H1|]. intros _. apply Hi.
  - wps; [by apply continue_init_ok| |].
    + apply bool_decide_eq_false in Heqb. by destruct Hi.
    + split; [exact H1|]. intros _. apply Hi.
Qed.
Lemma on_discovery_ok n res s ev t : sane None s -> in_init s -> ~ out s (QDisc n) -> x_dm s !! n = Some t -> t_addr t = None -> x_lked s = true ->
  (forall a, res = Some a -> match x_al s !! a with None => new_server s a | _ => True end) ->
  wp true (on_discovery cfg ra unl n res) (fun _ s' _ => settled None s') s ev.
Proof.
  intros H Hi Ho Hn Ht HL Ha. unfold on_discovery. wps. rewrite Hn.
  assert (Hcf : x_conf s PLc = true).
  { destruct (x_conf s PLc) eqn:E; [done|]. pose proof H as (_ & _ & _ & _ & _ & _ & (_ & _ & R3 & R4)). destruct Hi as [Hst _]. destruct (R4 Hst E) as (_ & _ & Hp & _).
    destruct (R3 Hp) as (_ & ? & _). congruence. }
  destruct res as [a|]; wps.
  - pose proof (sane_found ra None s n t a H Hn Ht Ho HL) as H1. specialize (Ha a eq_refl). destruct (x_al s !! a) as [l|] eqn:E; wps.
    + split; [|intros _; apply Hi]. apply (sane_alias ra None (w_dm s _) a l n (set_addr t a)); [exact H1|done|apply lookup_insert|done].
    + destruct Ha as [Ha1 Ha2]. apply wp_bnd, link_ok; [done|]. wps. split; [|intros _; apply Hi].
      apply (sane_link_task ra None (w_i (w_dm s (<[n := set_addr t a]> (x_dm s))) (updp (x_i s) PLc true)) a n (set_addr t a)); try done; [|cbn; apply lookup_insert].
      apply (sane_i None (w_dm s (<[n := set_addr t a]> (x_dm s)))); [exact H1|by right].
  - apply bool_decide_eq_false in Heqb. by destruct Hi.
  - eapply post_discovery_ok; try done; rewrite Ht; cbn.
    + by intros m ->%elem_of_list_singleton.
    + intros a k id l Hs He Hl m Hm ->%elem_of_list_singleton. pose proof H as (_ & _ & _ & _ & K & _). destruct (K (proj1 Hi) a k id Hs He) as (l' & E1 & E2 & E3).
      assert (l' = l) by congruence. subst l'. destruct (E3 n Hm) as (t' & ? & ?). congruence.
Qed.
Lemma on_link_ok ok ex s ev : sane ex s -> x_lked s = false -> x_conf s PRg = true -> (forall a id, x_sv s !! a = Some (SRec CbRegistry (SLinking id)) -> ex = Some a) ->
  wp true (on_link ok) (fun _ s' _ => sane ex s' /\ x_st s' = x_st s /\ x_ireq s' = x_ireq s) s ev.
Proof.
  intros H HL Hcf Hx. unfold on_link. pose proof H as (_ & _ & _ & _ & _ & (_ & _ & A3 & A4) & _).
  assert (H1 : sane ex (w_lking (w_lked s true) false)).
  { clear A3 A4. open_sane H. split_sane; try assumption; try done.
    - intros a id Ha He. by destruct (He (Hx a id Ha)).
    - cbn. congruence. }
  wps; [|done].
  eapply wp_call; [apply (wp_each_list true _ _ (fun r s' _ => sane ex s' /\ x_lked s' = true /\ x_st s' = x_st s /\ x_ireq s' = x_ireq s /\ x_rm s' = x_rm s /\ x_dm s' = x_dm s /\
      NoDup r.*1 /\ (forall n x, (n, x) ∈ r -> x_rm s !! n = Some x /\ ~ out s' (QReg n)) /\ (forall n, ~ out s' (QDisc n)))
    (fun _ s' _ => sane ex s' /\ x_lked s' = true /\ x_st s' = x_st s /\ x_ireq s' = x_ireq s /\ x_dm s' = x_dm s /\ (forall n, ~ out s' (QDisc n))))|].
  - intros [n x] r s1 ev1 (H2 & F1 & F2 & F3 & F4 & F5 & HN & HR & HD). unfold request. wps. cbn in HN. apply NoDup_cons in HN as [Hnr HN]. destruct (HR n x) as [Hn Ho]; [by left|].
    assert (H3 : sane ex (w_req s1 (QReg n))) by (apply sane_req; [done|done|done|rewrite F4; eauto]).
    split_and!; try done.
    + intros m y Hm. destruct (HR m y) as [Hm1 Hm2]; [by right|]. split; [done|]. intros Hq. apply (out_new s1 (QReg n)) in Hq as [[= <-]|?]; [|done|by apply H2].
      apply Hnr, elem_of_list_fmap. by exists (m, y).
    + intros m Hq. apply (out_new s1 (QReg n)) in Hq as [?|?]; [done|by apply (HD m)|by apply H2].
  - split_and!; try done; [apply NoDup_fst_map_to_list|..].
    + intros n x Hn%elem_of_map_to_list. split; [done|]. by apply A3.
    + intros n. by apply A3.
  - intros s1 ev1 (H2 & F1 & F2 & F3 & F4 & F5 & _ & _ & HD). done.
  - intros [] s1 ev1 (H2 & F1 & F2 & F3 & F4 & HD). wps.
    apply (wp_each_list true _ _ (fun r s' _ => sane ex s' /\ x_lked s' = true /\ x_st s' = x_st s /\ x_ireq s' = x_ireq s /\
      NoDup r.*1 /\ (forall n t, (n, t) ∈ r -> x_dm s' !! n = Some t /\ t_addr t = None /\ ~ out s' (QDisc n)))).
    + intros [n t] r s2 ev2 (H3 & G1 & G2 & G3 & HN & HR). unfold do_discover, request. wps. cbn in HN. apply NoDup_cons in HN as [Hnr HN]. destruct (HR n t) as (Hn & Ht & Ho); [by left|].
      set (s3 := w_dm s2 _). assert (H4 : sane ex s3).
      { unfold s3. clear A3 A4. open_sane H3. split_sane; try assumption.
        - intros Hst b m id Hb He. destruct (K Hst b m id Hb He) as (l' & E1 & E2 & E3). exists l'. split; [done|]. split; [done|].
          intros k Hk. destruct (E3 k Hk) as (t' & E4 & E5). exists t'. split; [|done]. cbn. rewrite lookup_insert_ne; [done|]. congruence.
        - intros Hst m Hm. cbn. rewrite lookup_insert_ne; [by apply A2|]. by intros <-.
        - cbn. congruence.
        - intros Hc. destruct (R3 Hc) as (_ & ? & _). cbn in *. congruence. }
      assert (H5 : sane ex (w_req s3 (QDisc n))).
      { apply sane_req; [done|done|done|]. exists (Task (t_delayed t) (t_oponly t) TDiscovering (t_addr t)). split; [apply lookup_insert|done]. }
      split_and!; try done. intros m y Hm. destruct (HR m y) as (Hm1 & Hm2 & Hm3); [by right|].
      assert (Hnm : n <> m) by (intros <-; apply Hnr, elem_of_list_fmap; by exists (n, y)). split_and!; [|done|].
      * cbn. by rewrite lookup_insert_ne.
      * intros Hq. apply (out_new s3 (QDisc n)) in Hq as [[= ?]|?]; [congruence|done|by apply H4].
    + split_and!; try done; [apply NoDup_fst_map_to_list|]. intros n t Hn%elem_of_map_to_list. split_and!; [done| |apply HD]. rewrite F4 in Hn. by apply (A4 HL n).
    + by intros s2 ev2 (? & ? & ? & ? & _).
Qed.

(** The names found at [a], whose link is being answered. *)
Definition found (s : astore) (a n : N) : Prop :=
  exists l, x_al s !! a = Some l /\ n ∈ l /\ forall m, m ∈ l -> exists t, x_dm s !! m = Some t /\ t_addr t = Some a.
Lemma on_task_link_ok n ok ex a s ev : sane ex s -> in_init s -> found s a n -> (forall k id, x_sv s !! a = Some (SRec (CbTask k) (SLinking id)) -> ex = Some a) ->
  wp true (on_task_link cfg ra unl n ok) (fun _ s' _ => settled ex s') s ev.
Proof.
  intros H Hi (l & E1 & E2 & E3) Hx. unfold on_task_link. wp1. destruct (E3 n E2) as (t & Hn & Ht). rewrite Hn, Ht. cbn [mbind option_bind]. rewrite E1.
  rewrite bool_decide_true by (apply Forall_forall; intros m Hm; destruct (E3 m Hm) as (? & ? & _); eauto). wps.
  eapply post_discovery_ok; try done; rewrite Ht; cbn [mbind option_bind]; rewrite E1; cbn [default from_option id].
  - intros m Hm Ho. destruct (E3 m Hm) as (t' & F1 & F2). pose proof H as (_ & _ & _ & _ & _ & (_ & A2 & _) & _). destruct (A2 (proj1 Hi) m Ho) as (? & ? & ?). congruence.
  - intros b k id l' Hb He Hl m Hm Hm'. pose proof H as (_ & _ & _ & _ & K & _). destruct (K (proj1 Hi) b k id Hb He) as (l2 & F1 & F2 & F3).
    replace l2 with l' in * by congruence. destruct (F3 m Hm) as (? & G1 & G2). destruct (E3 m Hm') as (? & G3 & G4). assert (b = a) by congruence. subst b. destruct He. by eapply Hx.
Qed.
Definition cb_fact (s : astore) (a : N) (cb : lcb) : Prop :=
  match cb with
  | CbNone => True
  | CbRegistry => a = ra /\ x_lked s = false /\ x_lking s = true
  | CbTask n => in_init s /\ found s a n
  end.
Lemma call_back_ok cb ok ex a s ev : sane ex s -> cb_fact s a cb -> (x_ireq s = true -> x_st s = AInitializing) ->
  (forall c id, x_sv s !! a = Some (SRec c (SLinking id)) -> ex = Some a) ->
  wp true (call_back cfg ra unl cb ok) (fun _ s' _ => settled ex s') s ev.
Proof.
  intros H Hf Hi Hx. destruct cb; cbn [call_back cb_fact] in *.
  - by wps.
  - destruct Hf as (-> & F1 & F2). eapply wp_mono; [apply (on_link_ok ok ex); try done|].
    + pose proof H as (_ & _ & _ & _ & _ & _ & (_ & _ & R3 & _)). destruct (x_conf s PRg) eqn:E; [done|]. destruct (R3 eq_refl) as (? & _). congruence.
    + intros b id Hb. destruct (decide (b = ra)) as [->|Hne]; [by eapply Hx|]. pose proof H as (_ & _ & _ & _ & _ & _ & (R1 & _)).
      destruct (decide (ex = Some b)) as [?|He]; [done|]. by destruct (R1 b id Hb He).
    + intros [] s1 ev1 (H1 & G1 & G2). split; [done|]. by rewrite G1, G2.
  - destruct Hf as [Hin Hf]. eapply on_task_link_ok; eauto.
Qed.
Lemma on_link_response_ok a ok x s ev : sane (Some a) s -> x_sv s !! a = Some x -> cb_fact s a (sr_cb x) -> (x_ireq s = true -> x_st s = AInitializing) ->
  wp true (on_link_response cfg ra unl a ok) (fun _ s' _ => sane None s') s ev.
Proof.
  intros H Ha Hf Hi. unfold on_link_response. wp1. rewrite Ha. destruct ok; cbn [negb when].
  - wps. wp_use (by apply (call_back_ok _ _ (Some a) a)). intros [] s1 ev1 [H1 Hi1].
    pose proof H1 as (_ & (_ & _ & _ & L4) & _). destruct (L4 a eq_refl) as [_ Hs]. wps; [| |by apply bool_decide_eq_false in Heqb].
    + eapply wp_mono; [apply (init_continue_ok None); [by apply sane_up|split; [by apply Hi1|done]]|]. by intros [] s2 ev2 [? _].
    + by apply sane_up.
  - wps. pose proof H as (_ & (_ & _ & _ & L4) & _). destruct (L4 a eq_refl) as [Ho _].
    wp_use (apply (call_back_ok _ _ None a); [apply (sane_forget ra (Some a)); [done|by left|done]|by destruct (sr_cb x)|done|]).
    { intros c id Hc. cbn in Hc. by rewrite lookup_delete in Hc. }
    intros [] s1 ev1 [H1 Hi1]. wps; exact H1.
Qed.
Lemma on_unlink_response_ok c ok s ev : sane None s -> ~ out s (QUnlink c) -> x_sreq s = true -> is_Some (x_cl s !! c) ->
  wp true (on_unlink_response unl c ok) (fun _ s' _ => fine s') s ev.
Proof.
  intros H Ho Hs Hc. unfold on_unlink_response. wp1. rewrite Hs. destruct ok; cbn [negb andb].
  - wpc; [done|by rewrite bool_decide_true|]. apply down_resume_ok. by apply sane_gone.
  - wps. by right.
Qed.
Lemma respond_ok q r s ev s0 : sane None s0 -> out s0 q -> may_answer s0 q -> sane (hole q) s -> ~ out s q ->
  (forall n a, q = QDisc n -> r = RpAddr a -> match x_al s !! a with None => new_server s a | _ => True end) ->
  (exists p l, s = w_late (w_pend s0 p) l) ->
  wp true (respond cfg ra unl q r) (fun _ s' _ => fine s') s ev.
Proof.
  intros H0 Hq Hm H Ho Hr (p & l & Hs). open_sane H0. destruct q; cbn [respond hole may_answer] in *.
  - destruct Hm as [M1 M2]. destruct (L1 a Hq) as (cb & id & Ha).
    eapply wp_mono; [apply (on_link_response_ok a _ (SRec cb (SLinking id)))|]; try (by subst s).
    + cbn [sr_cb]. destruct cb; cbn [cb_fact]; [done| |].
      * destruct (R1 a id Ha) as (? & ? & ?); by subst s.
      * rewrite Ha in M2. split; [by subst s|]. destruct (K (proj1 M2) a n id Ha) as (l' & ?); [done|]. exists l'. by subst s.
    + intros [] s1 ev1 H1. by right.
  - eapply wp_mono; [apply on_registration_ok; try done; subst s; try done|].
    + apply (A1 (proj1 Hm) n Hq).
    + intros [] s1 ev1 [? _]. by right.
  - destruct (A2 (proj1 Hm) n Hq) as (t & Hn & Ht). eapply wp_mono; [eapply on_discovery_ok; try done|].
    + by subst s.
    + subst s. exact Hn.
    + subst s. cbn. destruct (x_lked s0) eqn:E; [done|]. by destruct (A3 eq_refl n) as [_ []].
    + intros a Ha. destruct r; try done. injection Ha as ->. by apply (Hr n a).
    + intros [] s1 ev1 [? _]. by right.
  - destruct (C1 c Hq) as (? & id & Hc). apply on_unlink_response_ok; try done; subst s; [done|]. cbn. eauto.
Qed.
Lemma forget_link_ok a s ev : sane None s -> (forall x, x_sv s !! a = Some x -> is_linking x = false) ->
  wp true (forget_link unl a) (fun _ s' _ => fine s') s ev.
Proof.
  intros H Ha. unfold forget_link. wp1. destruct (x_sv s !! a) as [x|] eqn:E; [|wps; by right]. specialize (Ha x eq_refl). wps.
  wp_use (apply forget_links_ok; by eapply sane_queue). intros b s1 ev1 [H1 F]. wps; [|by right..].
  apply bool_decide_eq_true in Heqb0. by apply shutdown_continue_ok.
Qed.
Lemma resume_ok s ev : sane None s -> (x_st s = AInitializing -> x_ireq s = true) -> wp true (resume cfg ra unl) (fun _ s' _ => fine s') s ev.
Proof.
  intros H Hi. unfold resume. wp1. destruct (x_st s) eqn:E; try (wps; by right).
  - eapply wp_mono; [apply (init_continue_ok None); [done|split; [done|by apply Hi]]|]. intros [] s1 ev1 [? _]. by right.
  - by apply shutdown_continue_ok.
Qed.
Lemma on_link_request_ok c r o s ev : sane None s -> wp true (on_link_request c r o) (fun _ s' _ => fine s') s ev.
Proof.
  intros H. unfold on_link_request. wps; try (by right).
  - right. apply bool_decide_eq_false, eq_None_not_Some in Heqb0. apply (sane_cl ra None s c (CPending r)); [done|done|]. intros id. congruence.
  - right. apply bool_decide_eq_false, eq_None_not_Some in Heqb0. apply (sane_cl ra None s c COperational); [done|done|]. intros id. congruence.
Qed.
Lemma aprog_ok o s ev : sane None s -> prudent ra s o -> wp true (aprog cfg ra unl o) (fun _ s' _ => fine s') s ev.
Proof.
  intros H Hp. unfold aprog. wps; [by right|]. destruct o; cbn [astep_live prudent] in *.
  - wps.
    + apply bool_decide_eq_true in H0. eapply wp_mono; [apply (init_continue_ok None); done|]. intros [] s1 ev1 [? _]. by right.
    + by right.
  - destruct Hp as [Hc Hp]. unfold user. destruct u; cbn [act].
    + destruct Hp as [[N1 N2] N3]. apply wp_bnd, wp_bnd, link_ok; [done|]. wps; [done|]. right.
      apply (sane_link ra None (w_i s (updp (x_i s) PLc true)) a); [|done|done|by left]. apply sane_i; [done|left; apply updp_eq].
    + done.
    + done.
    + unfold acquire, reaction_init, reaction_down. wps; try done; right; try done.
    + destruct Hp as [N1 N2]. unfold release. wpc; [by apply N.ltb_lt| |by right]. by apply resume_ok.
    + wps; [done|]. by right.
  - wp1. destruct (x_pend s !! id) as [q|] eqn:E; [|wps; by right]. destruct Hp as [Hm Hr]. wps. destruct (sane_resp ra s id q H E) as [H1 H2].
    apply (respond_ok q r _ _ s); try done; [left; eauto| |exists (delete id (x_pend s)), (x_late s); by destruct s]. intros n a -> ->. done.
  - wp1. destruct (x_pend s !! id) as [q|] eqn:E; [|wps; by right]. wps. right. apply sane_timeout; [done|done|]. by destruct q.
  - wp1. destruct (x_late s) as [|q l] eqn:E; [wps; by right|]. wps. destruct (sane_late ra s q l H E) as [H1 H2].
    apply (respond_ok q RpErr _ _ s); try done; [right; rewrite E; by left|exists (x_pend s), l; by destruct s].
  - by apply on_link_request_ok.
  - unfold on_unlink_notify. wps. destruct (x_cl s !! c) as [x|] eqn:E; [|wps; by right]. pose proof H as (_ & _ & (C1 & C2 & _) & _). destruct x as [r| |id].
    + wps. apply down_resume_ok, sane_gone; [done|]. intros (_ & ? & ?)%C1. congruence.
    + wps. apply down_resume_ok, sane_gone; [done|]. intros (_ & ? & ?)%C1. congruence.
    + destruct Hp as [q Hq]. destruct (C2 c id E) as [_ Hc]. rewrite (Hc q Hq) in Hq. unfold discard_request. wpc; [by rewrite bool_decide_true by eauto|].
      destruct (sane_resp ra s id _ H Hq) as [H1 H2]. by apply down_resume_ok, sane_gone.
  - apply forget_link_ok; [done|]. intros x Hx. by rewrite Hx in Hp.
  - wps; try (by right). rewrite !andb_true_iff, !bool_decide_eq_true in H0. destruct H0 as [[[? ?] ?] ?]. eapply wp_mono; [apply (init_continue_ok None); [exact H|split; [done|by apply Hp]]|].
    intros [] s1 ev1 [? _]. by right.
  - unfold set_state. wps; try (by right); [|right; by apply sane_st].
    assert (Hs : sane None (w_st s AOperational)) by by apply sane_st. cbn [x_cl w_st].
    eapply wp_call; [apply (wp_each_list true _ _ (fun r s' _ => sane None s' /\ todo r (x_cl s')) (fun _ s' _ => sane None s'))|].
    + intros [c x] r s1 ev1 [H3 HT]. pose proof (todo_here _ _ _ _ HT) as Hc. destruct x; cbn [answer_pending]; wps.
      * split; [apply sane_cl; [done|done|congruence]|]. eapply todo_next; [exact HT|]. intros k Hk. by apply lookup_insert_ne.
      * split; [done|by eapply todo_next].
      * split; [done|by eapply todo_next].
    + split; [done|]. apply todo_init.
    + by intros s1 ev1 [? _].
    + intros [] s1 ev1 H3. wps. by right.
  - unfold set_state. wps; [|by right]. apply shutdown_continue_ok. split; [|done]. apply sane_st; [by apply sane_sreq|done|]. intros _. split; [done|].
    intros a Ha. rewrite Forall_forall in Hp. by specialize (Hp _ Ha).
  - wps. apply down_resume_ok. exact H.
Qed.
Lemma sane_ainit : sane None ainit.
Proof.
  assert (HO : forall q, ~ out ainit q) by (intros q [(id & Hq)|Hq]; [cbn in Hq; by rewrite lookup_empty in Hq|by apply elem_of_nil in Hq]).
  assert (HE : forall A (k : N) (x : A), (∅ : gmap N A) !! k = Some x -> False) by (intros A k x; by rewrite lookup_empty).
  split_sane; try done; try (split_and!; try done; try constructor); try (intros; exfalso; first [by eapply HO|by eapply HE]).
  intros _ _. split; [apply lookup_empty|apply not_elem_of_nil].
Qed.
Lemma prudent_runs ops : guarded (astep cfg ra unl) (prudent ra) ainit ops -> exists s ev, run (astep cfg ra unl) ainit ops = Ok (s, ev).
Proof.
  intros Hg. destruct (wp_run_safe (aprog cfg ra unl) (prudent ra) (fun s _ => fine s)) with (ops := ops) (s := ainit) (ev := [] : list aev) as (s & ev & E & _); eauto.
  - intros o s ev Ho [Hs|Hs]; [|by apply aprog_ok]. unfold aprog. wps; [by left|]. by apply bool_decide_eq_false in Heqb.
  - right. apply sane_ainit.
Qed.
End run.
