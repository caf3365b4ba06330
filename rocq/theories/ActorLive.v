(** The initialization makes progress: proofs. *)
From stdpp Require Import base list gmap.
From Verif Require Import Base Prog ActorModel ActorSpec ActorMoves ActorReach ActorProofs ActorSafeSpec ActorSafe ActorSafeRun ActorLiveSpec.
Open Scope N_scope.
Local Open Scope prog_scope.

Ltac open_alive H := destruct H as (T & G1 & G2 & G3 & G4 & G5 & G6).

Section live.
Context (cfg : plug -> list uact) (ra : N) (unl : bool).

(** What was asked for is under way. *)
Definition early : list plug := [PLc; PRg; PRs].
Definition alive (s : astore) : Prop :=
  (forall id q, x_pend s !! id = Some q -> id < x_next s) /\
  (forall n, x_rm s !! n = Some RRegistering -> x_lked s = true /\ out s (QReg n) \/ x_lked s = false /\ x_lking s = true) /\
  (forall n t, x_dm s !! n = Some t ->
     match t_addr t with
     | None => x_lked s = true /\ out s (QDisc n) \/ x_lked s = false /\ x_lking s = true
     | Some a => task_link s a /\ exists l, x_al s !! a = Some l /\ n ∈ l
     end) /\
  (x_lked s = false -> x_lking s = true -> exists id, x_sv s !! ra = Some (SRec CbRegistry (SLinking id))) /\
  (if x_conf s PSt then x_sub s = false -> x_trk s = 0%nat else x_sub s = true) /\
  (forall p, p ∈ early -> x_i s p = false -> x_conf s p = true) /\
  (x_conf s PSt = true -> forall p, p ∈ early -> x_conf s p = true).
(** Somebody will poll again. *)
Definition waits (s : astore) : Prop :=
  has_linking s = true \/ x_dm s <> ∅ \/ has_registering s = true \/ has_any s = true \/ (x_trk s <> 0%nat /\ x_conf s PSt = true).
(** What a poll does not touch. *)
Definition kept (s s' : astore) : Prop :=
  x_st s' = x_st s /\ x_ireq s' = x_ireq s /\ (forall b x, x_sv s !! b = Some x -> x_sv s' !! b = Some x) /\
  (forall n t a, x_dm s' !! n = Some t -> t_addr t = Some a -> x_dm s !! n = Some t).
Lemma kept_refl s : kept s s.
Proof. done. Qed.
Lemma kept_trans s1 s2 s3 : kept s1 s2 -> kept s2 s3 -> kept s1 s3.
Proof. intros (A1 & A2 & A3 & A4) (B1 & B2 & B3 & B4). split_and!; [congruence|congruence|eauto|eauto]. Qed.

Lemma out_req s q p : (forall id q, x_pend s !! id = Some q -> id < x_next s) -> out s p -> out (w_req s q) p.
Proof.
  intros T [(id & H)|H]; [left; exists id|by right]. unfold w_req. cbn. rewrite lookup_insert_ne; [done|]. apply T in H. lia.
Qed.
Lemma out_here s q : out (w_req s q) q.
Proof. left. exists (x_next s). apply lookup_insert. Qed.
Lemma fresh_req s q : (forall id q, x_pend s !! id = Some q -> id < x_next s) -> forall id p, x_pend (w_req s q) !! id = Some p -> id < x_next (w_req s q).
Proof. intros T id p. unfold w_req. cbn. intros [[<- _]|[_ H]]%lookup_insert_Some; [lia|]. apply T in H. lia. Qed.
Lemma task_link_ins s a b x s' : x_sv s !! a = None -> x_sv s' = <[a := x]> (x_sv s) -> task_link s b -> task_link s' b.
Proof. intros Ha E. unfold task_link. rewrite E. destruct (decide (a = b)) as [->|Hne]; [by rewrite Ha|]. by rewrite lookup_insert_ne. Qed.

Lemma alive_link s a cb : alive s -> x_sv s !! a = None ->
  alive (w_sv (w_req (w_i s (updp (x_i s) PLc true)) (QLink a)) (<[a := SRec cb (SLinking (x_next s))]> (x_sv s))).
Proof.
  intros H Ha. open_alive H. split_and!; try assumption.
  - by apply (fresh_req s).
  - intros n Hn. destruct (G1 n Hn) as [[? ?]|?]; [left; split; [done|]|by right]. by apply (out_req s).
  - intros n t Hn. specialize (G2 n t Hn). destruct (t_addr t) as [b|].
    + destruct G2 as [G2 Hl]. split; [|done]. by eapply (task_link_ins s a b).
    + destruct G2 as [[? ?]|?]; [left; split; [done|]|by right]. by apply (out_req s).
  - intros H1 H2. destruct (G3 H1 H2) as [id Hid]. exists id. cbn. rewrite lookup_insert_ne; [done|]. congruence.
  - intros p Hp. cbn. unfold updp. destruct (decide (p = PLc)); [done|]. by apply G5.
Qed.
Lemma link_live s ev a o cb (Q : unit -> astore -> list aev -> Prop) :
  (x_sv s !! a = None -> Q tt (w_sv (w_req (w_i s (updp (x_i s) PLc true)) (QLink a)) (<[a := SRec cb (SLinking (x_next s))]> (x_sv s))) (ev ++ [EvLink a o (x_next s)])) ->
  wp false (link a o cb) Q s ev.
Proof. intros HQ. unfold link, reaction_init, request. wps. apply bool_decide_eq_true in H. by apply HQ. Qed.
Lemma kept_ins s a x s' : x_sv s !! a = None -> x_st s' = x_st s -> x_ireq s' = x_ireq s -> x_sv s' = <[a := x]> (x_sv s) -> x_dm s' = x_dm s -> kept s s'.
Proof.
  intros Ha E1 E2 E3 E4. split_and!; [done|done|intros b y Hb; rewrite E3, lookup_insert_ne; congruence|congruence].
Qed.
Lemma link_registry_live s ev : alive s -> x_lked s = false ->
  wp false (link_registry ra) (fun _ s' _ => alive s' /\ kept s s' /\ x_lked s' = false /\ x_lking s' = true /\ x_dm s' = x_dm s /\ x_conf s' = x_conf s /\ x_sub s' = x_sub s) s ev.
Proof.
  intros H HL. unfold link_registry. wps. apply link_live. cbn [x_sv w_lking]. intros Ha. open_alive H.
  split; [split_and!; try assumption|split; [by eapply kept_ins|done]].
  - by apply (fresh_req s).
  - intros n Hn. by right.
  - intros n t Hn. specialize (G2 n t Hn). destruct (t_addr t) as [b|]; [|by right].
    destruct G2 as [G2 Hl]. split; [|done]. by eapply (task_link_ins s ra b).
  - intros _ _. eexists. apply lookup_insert.
  - intros p Hp. cbn. unfold updp. destruct (decide (p = PLc)); [done|]. by apply G5.
Qed.
Lemma alive_reg s n : alive s -> x_lked s = false -> x_lking s = true -> alive (w_rm s (<[n := RRegistering]> (x_rm s))).
Proof. intros H H1 H2. open_alive H. split_and!; try assumption. intros m Hm. by right. Qed.
Lemma alive_disc s n d o : alive s -> x_lked s = false -> x_lking s = true -> alive (w_dm s (<[n := Task d o TPassive None]> (x_dm s))).
Proof. intros H H1 H2. open_alive H. split_and!; try assumption. intros m t. cbn [x_dm w_dm]. intros [[<- <-]|[_ Hm]]%lookup_insert_Some; [by right|by apply G2]. Qed.

Definition still (s s' : astore) : Prop := kept s s' /\ x_conf s' = x_conf s /\ x_sub s' = x_sub s.
Lemma act_live u s ev : alive s -> x_sub s = true \/ u <> UTrack -> wp false (act ra u) (fun _ s' _ => alive s' /\ still s s') s ev.
Proof.
  intros H Hsub. destruct u; cbn [act].
  - apply wp_bnd, link_live. intros Ha. wps. split; [by apply alive_link|]. split; [by eapply kept_ins|done].
  - unfold register_name. wps.
    + apply negb_true_iff in H1. wp_use (by apply link_registry_live). intros [] s1 ev1 (H3 & F & F1 & F2 & F3 & F4 & F5). wps. split; [by apply alive_reg|]. by split.
    + apply negb_true_iff in H1. apply negb_false_iff in H2. split; [by apply alive_reg|]. done.
  - unfold discover_name. wps.
    + apply negb_true_iff in H1. wp_use (by apply link_registry_live). intros [] s1 ev1 (H3 & (F6 & F7 & F8 & F9) & F1 & F2 & F3 & F4 & F5). wps. split; [by apply alive_disc|].
      split; [|done]. split_and!; try done. intros m t a. cbn [x_dm w_dm]. intros [[_ <-]|[_ Hm]]%lookup_insert_Some; [done|eauto].
    + apply negb_true_iff in H1. apply negb_false_iff in H2. split; [by apply alive_disc|]. split; [|done]. split_and!; try done.
      intros m t a. cbn [x_dm w_dm]. intros [[_ <-]|[_ Hm]]%lookup_insert_Some; [done|eauto].
  - unfold acquire, reaction_init, reaction_down. wps; (split; [|done]); try exact H. open_alive H. split_and!; try assumption.
    intros p Hp. cbn. unfold updp. destruct (decide (p = PRs)); [done|]. by apply G5.
  - unfold release. wps. done.
  - wps. destruct Hsub as [Hsub|?]; [|done]. split; [|done]. open_alive H. split_and!; try assumption. cbn. destruct (x_conf s PSt); [|done]. congruence.
Qed.
Lemma still_refl s : still s s.
Proof. done. Qed.
Lemma still_trans s1 s2 s3 : still s1 s2 -> still s2 s3 -> still s1 s3.
Proof. intros (A1 & A2 & A3) (B1 & B2 & B3). split_and!; [by eapply kept_trans|congruence|congruence]. Qed.
Definition rising (s s' : astore) : Prop := kept s s' /\ forall p, x_conf s p = true -> x_conf s' p = true.
Lemma rising_trans s1 s2 s3 : rising s1 s2 -> rising s2 s3 -> rising s1 s3.
Proof. intros (A1 & A2) (B1 & B2). split; [by eapply kept_trans|eauto]. Qed.
Lemma configure_once_live p s ev : p ∈ init_order -> alive s -> (p = PSt -> forall q, q ∈ early -> x_conf s q = true) ->
  wp false (configure_once cfg ra p) (fun _ s' _ => alive s' /\ rising s s' /\ x_conf s' p = true) s ev.
Proof.
  intros Hp H Hq. unfold configure_once. wps; [|split; [done|split; [done|by apply negb_false_iff in H0]]]. apply negb_true_iff in H0.
  assert (Hsub : x_sub s = true).
  { open_alive H. destruct (x_conf s PSt) eqn:E; [|done]. destruct (decide (p = PSt)) as [->|Hne]; [congruence|]. rewrite G6 in H0; try done.
    apply elem_of_list_In in Hp. cbn in Hp. unfold early. apply elem_of_list_In. cbn. naive_solver. }
  set (s0 := w_conf s _). assert (H1 : alive s0).
  { open_alive H. split_and!; try assumption.
    - cbn. unfold updp. destruct (decide (PSt = p)); [congruence|exact G4].
    - intros q Hq' Hi. cbn. unfold updp. destruct (decide (q = p)); [done|by apply G5].
    - cbn. intros Hc q Hq'. unfold updp in *. destruct (decide (q = p)); [done|]. destruct (decide (PSt = p)) as [<-|]; [by apply Hq|by apply G6]. }
  eapply wp_mono; [apply (wp_each false (cfg p) _ (fun s' _ => alive s' /\ still s0 s'))|].
  - intros u s1 ev1 _ [H2 H3]. wp_use (apply act_live; [done|left; destruct H3 as (_ & _ & ->); done]). intros _ s2 ev2 [H4 H5]. wps. split; [done|]. by eapply still_trans.
  - done.
  - intros [] s1 ev1 [H2 (H3 & H4 & H5)]. split; [done|]. split; [split; [done|]|].
    + intros q Hc. rewrite H4. cbn. unfold updp. by destruct (decide _).
    + rewrite H4. cbn. apply updp_eq.
Qed.
Lemma handle_init_live p s ev : p ∈ init_order -> alive s -> (p = PSt -> forall q, q ∈ early -> x_conf s q = true) ->
  wp false (handle_init cfg ra p) (fun b s' _ => alive s' /\ rising s s' /\ x_conf s' p = true /\ (b = false -> waits s')) s ev.
Proof.
  intros Hp H Hq.
  assert (p = PLc \/ p = PRg \/ p = PRs \/ p = PSt) as [-> | [-> | [-> | ->]]] by (apply elem_of_list_In in Hp; cbn in Hp; naive_solver); cbn [handle_init].
  - wp_use (by apply configure_once_live). intros [] s1 ev1 (H1 & H2 & H3). wps. split_and!; try done; try apply H2. intros Hb%negb_false_iff. by left.
  - wp_use (by apply configure_once_live). intros [] s1 ev1 (H1 & H2 & H3). wps. split_and!; try done; try apply H2. intros [Hb|Hb]%andb_false_iff.
    + apply bool_decide_eq_false in Hb. by right; left.
    + apply negb_false_iff in Hb. by right; right; left.
  - wp_use (by apply configure_once_live). intros [] s1 ev1 (H1 & H2 & H3). wps. split_and!; try done; try apply H2. intros Hb%negb_false_iff. by right; right; right; left.
  - wp1. wp1; [|wps]; cycle 1.
    { split_and!; try done; [by apply negb_false_iff|]. intros Hb%bool_decide_eq_false. right; right; right; right. split; [done|by apply negb_false_iff]. }
    wps. wp_use (by apply configure_once_live). intros [] s1 ev1 (H1 & H2 & H3). unfold reaction_init. wps.
    + apply bool_decide_eq_true in H4. split_and!; try done; try apply H2.
      * open_alive H1. split_and!; try assumption.
        -- cbn. rewrite H3. done.
        -- intros q Hq'. cbn. unfold updp. destruct (decide (q = PSt)) as [->|]; [|by apply G5]. apply elem_of_list_In in Hq'. cbn in Hq'. naive_solver.
      * intros Hb%bool_decide_eq_false. done.
    + split_and!; try done; try apply H2. intros Hb%bool_decide_eq_false. right; right; right; right. done.
Qed.
(** A poll ends with somebody to wait for, or completes the initialization. *)
Definition polled (s : astore) : Prop := x_st s = AInitializing -> alive s /\ x_ireq s = true /\ x_prog s = false /\ waits s.
Definition grown (s s' : astore) : Prop :=
  (forall b x, x_sv s !! b = Some x -> x_sv s' !! b = Some x) /\ (forall n t a, x_dm s' !! n = Some t -> t_addr t = Some a -> x_dm s !! n = Some t).
Definition ini (s : astore) : Prop := x_st s = AInitializing /\ x_ireq s = true.
Lemma alive_prog s b : alive s -> alive (w_prog s b).
Proof. done. Qed.
Lemma loop_live p r s0 s ev : p ∈ init_order -> alive s -> ini s -> (p = PSt -> forall q, q ∈ early -> x_conf s q = true) -> grown s0 s ->
  (forall s' ev', alive s' -> ini s' -> (p <> PSt -> x_conf s' p = true) -> (forall q, x_conf s q = true -> x_conf s' q = true) -> grown s0 s' ->
    wp false (init_loop cfg ra r) (fun _ s' _ => polled s' /\ grown s0 s') s' ev') ->
  wp false (init_loop cfg ra (p :: r)) (fun _ s' _ => polled s' /\ grown s0 s') s ev.
Proof.
  intros Hp H Hi Hq [W1 W2] HK. cbn [init_loop]. wps.
  - wp_use (by apply handle_init_live). intros b s1 ev1 (H1 & (((F1 & F2 & F3 & F4) & F5) & F6 & F7)). unfold reaction_init. wps.
    + apply HK; try done.
      * open_alive H1. split_and!; try assumption. intros q Hq'. cbn. unfold updp. destruct (decide (q = p)) as [->|]; [done|by apply G5].
      * destruct Hi as [I1 I2]. split; cbn; congruence.
      * split; cbn; eauto.
    + split; [|split; cbn; eauto]. intros _. destruct Hi as [I1 I2]. split_and!; [done|cbn; congruence|done|by apply F7].
  - apply HK; try done. intros Hne. open_alive H. apply G5; [|done]. apply elem_of_list_In in Hp. cbn in Hp. unfold early. apply elem_of_list_In. cbn. naive_solver.
Qed.
Lemma init_continue_live s ev : alive s -> wp false (init_continue cfg ra) (fun _ s' _ => polled s' /\ grown s s') s ev.
Proof.
  intros H. unfold init_continue. wps. apply bool_decide_eq_true in H0. set (s0 := w_prog s true).
  assert (A0 : alive s0) by done. assert (I0 : ini s0) by done. assert (W0 : grown s s0) by done. clearbody s0. unfold init_order.
  apply loop_live; try done; [by left|]. intros s1 ev1 A1 I1 C1 M1 W1. specialize (C1 ltac:(done)).
  apply loop_live; try done; [by right; left|]. intros s2 ev2 A2 I2 C2 M2 W2. specialize (C2 ltac:(done)). apply M2 in C1.
  apply loop_live; try done; [by right; right; left|]. intros s3 ev3 A3 I3 C3 M3 W3. specialize (C3 ltac:(done)). apply M3 in C1. apply M3 in C2.
  apply loop_live; try assumption; [by right; right; right; left| |].
  { intros _ q Hq. apply elem_of_list_In in Hq. cbn in Hq. naive_solver. }
  intros s4 ev4 A4 I4 C4 M4 W4. cbn [init_loop]. unfold init_finish, set_state. wps. by split.
Qed.
Lemma continue_init_live s ev : alive s -> wp false (continue_init cfg ra true) (fun _ s' _ => polled s' /\ grown s s') s ev.
Proof. intros H. unfold continue_init. wps. by apply init_continue_live. Qed.
Definition failed (ev : list aev) : Prop := exists p, EvInitErr p ∈ ev.
Lemma failed_app ev e : failed ev -> failed (ev ++ e).
Proof. intros [p H]. exists p. apply elem_of_app. by left. Qed.
Lemma failed_here ev p : failed (ev ++ [EvInitErr p]).
Proof. exists p. apply elem_of_app. right. by left. Qed.
Lemma continue_init_err s ev : wp false (continue_init cfg ra false) (fun _ _ ev' => failed ev') s ev.
Proof. unfold continue_init. wps. apply failed_here. Qed.

(** ** Messages *)
Definition going_on (s : astore) (ev : list aev) : Prop := x_st s = AInitializing -> ~ failed ev -> alive s /\ x_ireq s = true /\ x_prog s = false /\ waits s.
Lemma polled_going s ev : polled s -> going_on s ev.
Proof. intros H Hst _. by apply H. Qed.
Lemma failed_going s ev : failed ev -> going_on s ev.
Proof. intros H _ []. done. Qed.
Lemma waits_rm s r : (exists n, r !! n = Some RRegistering) -> waits (w_rm s r).
Proof. intros (n & Hn). right; right; left. apply bool_decide_eq_true. exists n, RRegistering. done. Qed.
Lemma on_registration_live n ok s ev : alive (w_rm s (delete n (x_rm s))) -> x_st s = AInitializing -> x_ireq s = true -> x_prog s = false ->
  wp false (on_registration cfg ra n ok) (fun _ => going_on) s ev.
Proof.
  intros H Hst Hi Hp. unfold on_registration.
  assert (H' : alive (w_rm s (<[n := ROperational]> (x_rm s)))).
  { open_alive H. split_and!; try assumption. intros m. cbn [x_rm w_rm]. intros [[_ ?]|[Hm ?]]%lookup_insert_Some; [done|]. apply (G1 m). cbn. by rewrite lookup_delete_ne. }
  wps; destruct ok.
  - eapply wp_mono; [by apply continue_init_live|]. intros [] s1 ev1 [? _]. by apply polled_going.
  - wp_use (apply continue_init_err). intros [] s1 ev1. apply failed_going.
  - apply orb_false_iff in H1 as [H1%negb_false_iff _]. intros _ _. split_and!; try done. by right; right; left.
  - by apply orb_false_iff in H1 as [_ ?].
Qed.
Lemma alive_drop s l : alive s -> alive (w_dm s (del_all l (x_dm s))).
Proof.
  intros H. open_alive H. split_and!; try assumption. intros n t. cbn [x_dm w_dm]. rewrite del_all_lookup. destruct (decide _); [done|]. apply G2.
Qed.
(** The names found at [a] are dealt with. *)
Lemma post_discovery_live n a l t s ev : alive s -> x_st s = AInitializing -> x_ireq s = true -> x_prog s = false -> x_dm s !! n = Some t -> t_addr t = Some a -> x_al s !! a = Some l ->
  wp false (post_discovery cfg ra unl n true)
    (fun _ s' _ => polled s' /\ (forall b x, x_sv s !! b = Some x -> x_sv s' !! b = Some x) /\ (forall m u, x_dm s' !! m = Some u -> t_addr u <> Some a)) s ev.
Proof.
  intros H Hst Hi Hp Hn Ht Hl. unfold post_discovery. wp1. rewrite Hn, Ht. cbn [mbind option_bind]. rewrite Hl.
  assert (Hno : forall m u, del_all l (x_dm s) !! m = Some u -> t_addr u <> Some a).
  { intros m u. rewrite del_all_lookup. destruct (decide _) as [|Hm]; [done|]. intros Hu E. open_alive H. specialize (G2 m u Hu). rewrite E in G2.
    destruct G2 as (_ & l' & E1 & E2). congruence. }
  apply wp_bnd, wp_del. wps.
  - wp_use (apply continue_init_live; by apply alive_drop). intros [] s1 ev1 [H1 [H2 H3]]. split_and!; [done|exact H2|].
    intros m u Hu E. eapply Hno; [|exact E]. by eapply (H3 m u a).
  - apply bool_decide_eq_false in Heqb. done.
  - apply orb_false_iff in H0 as [H0%bool_decide_eq_false _]. split_and!; try done. intros _. split_and!; try done; [by apply alive_drop|by right; left].
Qed.
Lemma post_discovery_failed n s ev : x_st s = AInitializing -> wp false (post_discovery cfg ra unl n false) (fun _ _ ev' => failed ev') s ev.
Proof.
  intros Hst. unfold post_discovery. wp1. destruct (x_dm s !! n) as [t|]; [|by wps].
  destruct (t_addr t ≫= (x_al s !!.)) as [l|].
  - apply wp_bnd, wp_del. wps; [apply continue_init_err| |].
    + apply bool_decide_eq_false in Heqb. done.
    + by apply orb_false_iff in H as [_ ?].
  - wps; [apply continue_init_err| |].
    + apply bool_decide_eq_false in Heqb. done.
    + by apply orb_false_iff in H as [_ ?].
Qed.
Lemma on_discovery_live n res s ev : x_st s = AInitializing -> x_ireq s = true -> x_prog s = false ->
  (* the request for [n] was just answered *)
  alive (w_dm s (delete n (x_dm s))) -> x_lked s = true ->
  (forall a l, res = Some a -> x_al s !! a = Some l -> task_link s a) ->
  wp false (on_discovery cfg ra unl n res) (fun _ => going_on) s ev.
Proof.
  intros Hst Hi Hp H HL Ha. unfold on_discovery. wps. destruct (x_dm s !! n) as [t|] eqn:Hn; [|by wps]. destruct res as [a|].
  - wps; [|by apply bool_decide_eq_false in Heqb].
    assert (HG : forall m u, m <> n -> x_dm s !! m = Some u -> x_dm (w_dm s (delete n (x_dm s))) !! m = Some u) by (intros m u Hm Hu; cbn; by rewrite lookup_delete_ne).
    destruct (x_al s !! a) as [l|] eqn:El.
    + wps. intros _ _. split_and!; try done.
      * open_alive H. split_and!; try assumption. intros m u. cbn [x_dm w_dm w_al]. intros [[<- <-]|[Hm Hu]]%lookup_insert_Some.
        -- cbn. split; [by apply (Ha a l)|]. exists (l ++ [n]). rewrite lookup_insert. split; [done|]. apply elem_of_app. right. by left.
        -- specialize (G2 m u (HG m u (not_eq_sym Hm) Hu)). destruct (t_addr u) as [b|]; [|exact G2]. destruct G2 as (G2 & l' & E1 & E2). split; [done|].
           cbn in *. destruct (decide (b = a)) as [->|Hne]; [|exists l'; by rewrite lookup_insert_ne]. exists (l ++ [n]). rewrite lookup_insert. split; [done|]. apply elem_of_app. left. congruence.
      * right; left. cbn. apply insert_non_empty.
    + apply wp_bnd, link_live. cbn [x_sv w_dm]. intros Hv. wps. intros _ _. split_and!; try done.
      * open_alive H. split_and!; try assumption.
        -- by apply (fresh_req s).
        -- intros m Hm. destruct (G1 m Hm) as [[? ?]|?]; [left; split; [done|]|by right]. by apply (out_req s).
        -- intros m u. cbn [x_dm w_dm w_al w_sv w_req w_i w_pend w_next]. intros [[<- <-]|[Hm Hu]]%lookup_insert_Some.
           ++ cbn. split; [unfold task_link; cbn; by rewrite lookup_insert|]. exists [n]. rewrite lookup_insert. split; [done|]. by left.
           ++ specialize (G2 m u (HG m u (not_eq_sym Hm) Hu)). destruct (t_addr u) as [b|].
              ** destruct G2 as (G2 & l' & E1 & E2). split; [by eapply (task_link_ins s a b)|]. exists l'. cbn. rewrite lookup_insert_ne; [done|]. intros <-. cbn in E1. congruence.
              ** destruct G2 as [[? ?]|?]; [left; split; [done|]|by right]. by apply (out_req s).
        -- intros H1 H2. cbn in H1. congruence.
        -- intros p Hp'. cbn. unfold updp. destruct (decide (p = PLc)); [done|]. by apply G5.
      * right; left. cbn. apply insert_non_empty.
  - wps. wp_use (by apply post_discovery_failed). intros [] s1 ev1. apply failed_going.
Qed.
(** The registry is linked: everything is asked for. *)
Lemma on_link_live s ev : alive s -> wp false (on_link true)
  (fun _ s' _ => alive s' /\ x_lked s' = true /\ x_sv s' = x_sv s /\ x_st s' = x_st s /\ x_ireq s' = x_ireq s /\ x_prog s' = x_prog s /\
     forall n t, x_dm s' !! n = Some t -> exists t0, x_dm s !! n = Some t0 /\ t_addr t = t_addr t0) s ev.
Proof.
  intros H. unfold on_link. wps; [|done]. open_alive H.
  set (F := fun s' : astore => x_lked s' = true /\ x_sv s' = x_sv s /\ x_st s' = x_st s /\ x_ireq s' = x_ireq s /\ x_prog s' = x_prog s /\ x_al s' = x_al s /\ x_rm s' = x_rm s /\
    x_conf s' = x_conf s /\ x_sub s' = x_sub s /\ x_trk s' = x_trk s /\ x_i s' = x_i s /\ (forall id q, x_pend s' !! id = Some q -> id < x_next s')).
  eapply wp_call; [apply (wp_each_list false _ _ (fun r s' _ => F s' /\ x_dm s' = x_dm s /\ forall n x, x_rm s !! n = Some x -> (n, x) ∈ r \/ out s' (QReg n))
     (fun _ s' _ => F s' /\ x_dm s' = x_dm s /\ forall n x, x_rm s !! n = Some x -> out s' (QReg n)))|].
  - intros [n x] r s1 ev1 (F1 & D1 & R1). unfold request. wps. fold (w_req s1 (QReg n)). destruct F1 as (F1 & F2 & F3 & F4 & F5 & F6 & F7 & F8 & F9 & F10 & F11 & F12).
    split; [split_and!; try done; by apply (fresh_req s1)|]. split; [done|].
    intros m y Hm. destruct (R1 m y Hm) as [[[= -> ->]|?]%elem_of_cons|?]; [right; apply out_here|by left|right; by apply out_req].
  - split; [split_and!; try done|]. split; [done|]. intros n x Hn. left. by apply elem_of_map_to_list.
  - intros s1 ev1 (F1 & D1 & R1). split; [done|]. split; [done|]. intros n x Hn. destruct (R1 n x Hn) as [?%elem_of_nil|?]; done.
  - intros [] s1 ev1 (F1 & D1 & R1). wps.
    apply (wp_each_list false _ _ (fun r s' _ => F s' /\ (forall n x, x_rm s !! n = Some x -> out s' (QReg n)) /\ (forall n t, (n, t) ∈ r -> x_dm s !! n = Some t) /\
      forall n t, x_dm s' !! n = Some t -> exists t0, x_dm s !! n = Some t0 /\ t_addr t = t_addr t0 /\ ((n, t0) ∈ r \/ out s' (QDisc n)))).
    + intros [n t] r s2 ev2 (F2 & R2 & S2 & D2). unfold do_discover, request. wps. destruct F2 as (E1 & E2 & E3 & E4 & E5 & E6 & E7 & E8 & E9 & E10 & E11 & E12).
      set (s3 := w_dm s2 _). fold (w_req s3 (QDisc n)). split; [split_and!; try done; by apply (fresh_req s3)|]. split; [|split].
      * intros m y Hm. apply (out_req s3); [done|]. by apply (R2 m y).
      * intros m u Hm. apply S2. by right.
      * intros m u. unfold w_req, s3. cbn [x_dm w_dm w_next w_pend]. intros [[<- <-]|[Hm Hu]]%lookup_insert_Some.
        -- exists t. split; [apply S2; by left|]. split; [done|]. right. apply (out_here s3).
        -- destruct (D2 m u Hu) as (t0 & G7 & G8 & G9). exists t0. split; [done|]. split; [done|]. destruct G9 as [[[= -> ->]|?]%elem_of_cons|?]; [done|by left|right; by apply (out_req s3)].
    + split; [done|]. split; [done|]. rewrite D1. split; [intros n t Hn; by apply elem_of_map_to_list|]. intros n t Hn. exists t. split; [done|]. split; [done|]. left. by apply elem_of_map_to_list.
    + intros s2 ev2 (F2 & R2 & _ & D2). destruct F2 as (E1 & E2 & E3 & E4 & E5 & E6 & E7 & E8 & E9 & E10 & E11 & E12). split; [|split_and!; try done].
      * split_and!.
        -- done.
        -- rewrite E7. intros n Hn. left. split; [done|]. by eapply R2.
        -- intros n t Hn. destruct (D2 n t Hn) as (t0 & G7 & G8 & G9). specialize (G2 n t0 G7). rewrite G8. destruct (t_addr t0) as [a|].
           ++ unfold task_link. rewrite E2, E6. exact G2.
           ++ left. split; [done|]. by destruct G9 as [?%elem_of_nil|?].
        -- congruence.
        -- by rewrite E8, E9, E10.
        -- rewrite E8, E11. exact G5.
        -- rewrite E8. exact G6.
      * intros n t Hn. destruct (D2 n t Hn) as (t0 & G7 & G8 & _). eauto.
Qed.
Lemma alive_up s a cb : alive s -> (forall m u, x_dm s !! m = Some u -> t_addr u <> Some a) -> (x_lked s = false -> x_lking s = true -> a <> ra) ->
  alive (w_sv s (<[a := SRec cb SOperational]> (x_sv s))).
Proof.
  intros H Hd Hr. open_alive H. split_and!; try assumption.
  - intros n t Hn. specialize (G2 n t Hn). specialize (Hd n t Hn). destruct (t_addr t) as [b|]; [|done]. destruct G2 as [G2 ?]. split; [|done].
    unfold task_link in *. cbn. rewrite lookup_insert_ne; [done|]. congruence.
  - intros H1 H2. destruct (G3 H1 H2) as [id Hid]. exists id. cbn. rewrite lookup_insert_ne; [done|]. by apply Hr.
Qed.
Lemma on_link_response_live a ok x s ev : alive s -> x_st s = AInitializing -> x_ireq s = true -> x_prog s = false -> x_sv s !! a = Some x -> is_linking x = true ->
  match sr_cb x with CbTask n => found s a n | _ => True end ->
  wp false (on_link_response cfg ra unl a ok) (fun _ => going_on) s ev.
Proof.
  intros H Hst Hi Hp Ha Hx Hf. unfold on_link_response. wp1. rewrite Ha. destruct ok; cbn [negb when].
  - apply wp_bnd, wp_skip.
    eapply (wp_call false _ _ (fun _ s' _ => x_st s' = AInitializing -> alive s' /\ x_ireq s' = true /\ x_sv s' !! a = Some x /\ (forall m u, x_dm s' !! m = Some u -> t_addr u <> Some a) /\
       (x_lked s' = false -> x_lking s' = true -> a <> ra))).
    + destruct x as [cb st]. destruct st as [id|]; [|done]. destruct cb; cbn [call_back sr_cb] in *.
      * wps. intros _. split_and!; try done.
        -- intros m u Hm E. open_alive H. specialize (G2 m u Hm). rewrite E in G2. destruct G2 as [G2 _]. unfold task_link in G2. by rewrite Ha in G2.
        -- intros H1 H2 ->. open_alive H. destruct (G3 H1 H2). congruence.
      * wp_use (by apply on_link_live). intros [] s1 ev1 (H1 & H2 & H3 & H4 & H5 & H6 & H7) _. split_and!; try congruence.
        intros m u Hm E. destruct (H7 m u Hm) as (u0 & Hu & E'). open_alive H. specialize (G2 m u0 Hu). rewrite <- E', E in G2. destruct G2 as [G2 _]. unfold task_link in G2. by rewrite Ha in G2.
      * destruct Hf as (l & E1 & E2 & E3). destruct (E3 n E2) as (t & Hn & Ht). unfold on_task_link. wp1. rewrite Hn, Ht. cbn [mbind option_bind]. rewrite E1. wps.
        wp_use (by eapply post_discovery_live). intros [] s1 ev1 (H1 & H2 & H3) Hst1. destruct (H1 Hst1) as (H4 & H5 & H6 & H7). apply H2 in Ha. split_and!; try done.
        intros H8 H9 ->. open_alive H4. destruct (G3 H8 H9). congruence.
    + intros [] s1 ev1 H1. wps.
      * destruct (decide (x_st s1 = AInitializing)) as [Hs|Hs].
        -- destruct (H1 Hs) as (H2 & H3 & H4 & H5 & H6). wp_use (apply init_continue_live; by apply alive_up). intros [] s2 ev2 [? _]. by apply polled_going.
        -- unfold init_continue. wps. by apply bool_decide_eq_true in H2.
      * intros Hs _. cbn in Hs. destruct (H1 Hs) as (_ & H3 & _). congruence.
  - wps. eapply (wp_call false _ _ (fun _ s' ev' => failed ev' \/ x_ireq s' = true)).
    + destruct (sr_cb x) as [| |n]; cbn [call_back].
      * wps. by right.
      * unfold on_link. wps; [done|]. by right.
      * unfold on_task_link. wp1. destruct (x_dm _ !! n) as [t|]; [|by wps]. destruct (t_addr t ≫= _); [|by wps]. wps.
        wp_use (by apply post_discovery_failed). intros [] s1 ev1 ?. by left.
    + intros [] s1 ev1 [Hf'|Hi']; wps.
      * apply failed_going, failed_here.
      * by apply failed_going.
      * apply failed_going, failed_here.
      * congruence.
Qed.
(** ** Steps *)
Lemma alive_answered s q p l : alive s -> (forall id x, p !! id = Some x -> x_pend s !! id = Some x) -> (forall x, out s x -> x = q \/ out (w_late (w_pend s p) l) x) ->
  let s' := w_late (w_pend s p) l in
  match q with
  | QReg n => alive (w_rm s' (delete n (x_rm s')))
  | QDisc n => alive (w_dm s' (delete n (x_dm s')))
  | _ => alive s'
  end.
Proof.
  intros H Hp Ho s'. open_alive H.
  assert (P1 : forall id x, x_pend s' !! id = Some x -> id < x_next s') by (intros id x Hx; eapply T, Hp; exact Hx).
  assert (P2 : forall n, q <> QReg n -> x_rm s' !! n = Some RRegistering -> x_lked s' = true /\ out s' (QReg n) \/ x_lked s' = false /\ x_lking s' = true).
  { intros n Hn Hr. destruct (G1 n Hr) as [[? Hq]|?]; [left; split; [done|]|by right]. apply Ho in Hq as [?|?]; [congruence|done]. }
  assert (P3 : forall n t, q <> QDisc n -> x_dm s' !! n = Some t -> match t_addr t with
     | None => x_lked s' = true /\ out s' (QDisc n) \/ x_lked s' = false /\ x_lking s' = true
     | Some a => task_link s' a /\ exists l, x_al s' !! a = Some l /\ n ∈ l end).
  { intros n t Hn Ht. specialize (G2 n t Ht). destruct (t_addr t) as [a|]; [done|]. destruct G2 as [[? Hq]|?]; [left; split; [done|]|by right]. apply Ho in Hq as [?|?]; [congruence|done]. }
  destruct q as [a|n|n|c].
  - split_and!; try assumption; [intros n Hn; by apply P2|intros n t Hn; by apply P3].
  - split_and!; try assumption; [|intros m t Hn; by apply P3].
    intros m. cbn [x_rm w_rm]. intros [Hm Hr]%lookup_delete_Some. apply (P2 m); [congruence|done].
  - split_and!; try assumption; [intros m Hn; by apply P2|].
    intros m t. cbn [x_dm w_dm]. intros [Hm Hr]%lookup_delete_Some. apply (P3 m); [congruence|done].
  - split_and!; try assumption; [intros n Hn; by apply P2|intros n t Hn; by apply P3].
Qed.
Lemma alive_forget s a : alive s -> (forall x, x_sv s !! a = Some x -> is_linking x = false) -> alive (w_sv s (delete a (x_sv s))).
Proof.
  intros H Hx. open_alive H. split_and!; try assumption.
  - intros n t Hn. specialize (G2 n t Hn). destruct (t_addr t) as [b|]; [|done]. destruct G2 as [G2 ?]. split; [|done].
    unfold task_link in *. cbn. rewrite lookup_delete_ne; [done|]. intros ->. destruct (x_sv s !! b) as [[cb st]|]; [|done]. specialize (Hx _ eq_refl). by destruct cb, st.
  - intros H1 H2. destruct (G3 H1 H2) as [id Hid]. exists id. cbn. rewrite lookup_delete_ne; [done|]. intros ->. by specialize (Hx _ Hid).
Qed.
Lemma linking_forget s a : (forall x, x_sv s !! a = Some x -> is_linking x = false) -> has_linking s = true -> has_linking (w_sv s (delete a (x_sv s))) = true.
Proof.
  intros Hx Hl. apply bool_decide_eq_true in Hl as (b & y & Hb & Hy). apply bool_decide_eq_true. exists b, y. split; [|done]. cbn. rewrite lookup_delete_ne; [done|]. intros ->. specialize (Hx _ Hb). congruence.
Qed.
Definition linv (s : astore) (ev : list aev) : Prop :=
  x_st s = AInitializing -> ~ failed ev -> alive s /\ x_prog s = false /\ (x_conf s PLc = false /\ x_ireq s = false \/ x_ireq s = true /\ waits s).
Lemma going_linv s ev : going_on s ev -> linv s ev.
Proof. intros H Hst Hf. destruct (H Hst Hf) as (? & ? & ? & ?). auto. Qed.
Lemma forget_all_live l s ev : alive s -> (forall a x, a ∈ l -> x_sv s !! a = Some x -> is_linking x = false) ->
  wp false (forget_all unl l) (fun _ s' _ => alive s' /\ x_st s' = x_st s /\ x_prog s' = x_prog s /\ x_conf s' = x_conf s /\ x_ireq s' = x_ireq s /\ (waits s -> waits s')) s ev.
Proof.
  revert s ev. induction l as [|a l IH]; intros s ev H Hl; cbn [forget_all]; [by wps|]. unfold forget_one. wps. destruct (x_sv s !! a) as [x|] eqn:E; wps.
  - assert (Hx : forall y, x_sv s !! a = Some y -> is_linking y = false) by (intros y; apply Hl; by left).
    wp_use (apply IH). { by apply alive_forget. }
    { intros b y Hb. cbn [x_sv w_sv]. intros [_ Hy]%lookup_delete_Some. eapply Hl; [by right|done]. }
    intros b s1 ev1 (H1 & F1 & F2 & F3 & F4 & F5). wps. split_and!; try done. intros W. apply F5. destruct W as [W|W]; [left; by apply linking_forget|by right].
  - wp_use (apply IH; [done|]). { intros b y Hb. apply Hl. by right. } intros b s1 ev1 (H1 & F1 & F2 & F3 & F4 & F5). by wps.
Qed.
Lemma forget_link_live a s ev : sane ra None s -> alive s -> x_st s = AInitializing -> x_prog s = false -> (x_conf s PLc = false /\ x_ireq s = false \/ x_ireq s = true /\ waits s) ->
  (forall x, x_sv s !! a = Some x -> is_linking x = false) -> wp false (forget_link unl a) (fun _ => linv) s ev.
Proof.
  intros HS H Hst Hp Hw Hx. unfold forget_link, forget_links. wp1. destruct (x_sv s !! a) as [x|] eqn:E; [|wps; by intros _ _].
  assert (HQ : forall b y, b ∈ x_uq s ++ [a] -> x_sv s !! b = Some y -> is_linking y = false).
  { intros b y [Hb| ->%elem_of_list_singleton]%elem_of_app Hy; [|rewrite E in Hy; by apply Hx]. pose proof HS as (_ & (_ & _ & L3 & _) & _). by eapply L3. }
  wp1. eapply (wp_call false _ _ (fun _ s' _ => alive s' /\ x_st s' = x_st s /\ x_prog s' = x_prog s /\ x_conf s' = x_conf s /\ x_ireq s' = x_ireq s /\ (waits s -> waits s'))).
  { wps; [|done]. eapply wp_mono; [apply forget_all_live; [exact H|exact HQ]|]. done. }
  intros b s1 ev1 (H1 & F1 & F2 & F3 & F4 & F5).
  assert (HL : linv s1 ev1).
  { intros _ _. rewrite F3, F4, F2. split_and!; [done|done|]. destruct Hw as [?|[? ?]]; [by left|right; auto]. }
  wps.
  - apply bool_decide_eq_true in Heqb0. congruence.
  - intros Hs Hf. apply HL; [done|]. intros Hf'. apply Hf. by apply failed_app.
  - done.
Qed.
Lemma wp_ext {A} (m : prog astore aev A) s ev : wp false m (fun _ _ ev' => exists e, ev' = ev ++ e) s ev.
Proof. unfold wp. destruct (m s) as [[[s1 e1] a]| |]; eauto. Qed.
Lemma reach_quiet D s ev : reach D s ev -> x_st s = AInitializing <-> (forall a b, EvState a b ∉ ev).
Proof.
  apply (reach_inv D (fun s ev => x_st s = AInitializing <-> (forall a b, EvState a b ∉ ev))).
  { split; [intros _ a b ?%elem_of_nil; done|done]. }
  clear. intros s ev e s' _ IH Hm.
  assert (Hsame : x_st s' = x_st s -> (forall a b, EvState a b ∉ e) -> x_st s' = AInitializing <-> (forall a b, EvState a b ∉ ev ++ e)).
  { intros -> He. rewrite IH. setoid_rewrite elem_of_app. naive_solver. }
  assert (Hdiff : x_st s' <> AInitializing -> (exists a b, EvState a b ∈ e) -> x_st s' = AInitializing <-> (forall a b, EvState a b ∉ ev ++ e)).
  { intros ? (a & b & He). split; [done|]. intros Hn. destruct (Hn a b). apply elem_of_app. by right. }
  destruct Hm; try (apply Hsame; [done|]; intros p0 q0; rewrite ?elem_of_cons, ?elem_of_nil; intuition discriminate).
  all: try (apply Hdiff; [done|]; eexists _, _; rewrite ?elem_of_app, ?elem_of_cons; eauto; fail).
  - apply Hsame; [done|]. intros p0 q0. destruct d; rewrite ?elem_of_cons, ?elem_of_nil; intuition discriminate.
  - apply Hsame; [done|]. intros p0 q0. destruct (bool_decide _); rewrite ?elem_of_cons, ?elem_of_nil; intuition discriminate.
  - apply Hsame; [done|]. intros p0 q0 (? & ? & _)%H1. done.
  - apply Hsame; [by destruct b|]. intros p0 q0. rewrite ?elem_of_cons, ?elem_of_nil; intuition discriminate.
  - apply Hsame; [by destruct b|]. intros p0 q0. rewrite ?elem_of_cons, ?elem_of_nil; intuition discriminate.
Qed.
Lemma down_resume_live s ev (Q : unit -> astore -> list aev -> Prop) : x_st s = AInitializing -> Q tt s ev -> wp false (down_resume unl) Q s ev.
Proof. intros Hst HQ. unfold down_resume. wps; [|done]. apply bool_decide_eq_true in H. congruence. Qed.
Lemma respond_live q r s s0 ev : sane ra None s0 -> out s0 q -> may_answer s0 q -> alive s0 -> x_st s0 = AInitializing -> x_prog s0 = false ->
  (x_conf s0 PLc = false /\ x_ireq s0 = false \/ x_ireq s0 = true /\ waits s0) ->
  (exists p l, s = w_late (w_pend s0 p) l /\ (forall id x, p !! id = Some x -> x_pend s0 !! id = Some x) /\ (forall x, out s0 x -> x = q \/ out (w_late (w_pend s0 p) l) x)) ->
  (forall n a l, q = QDisc n -> r = RpAddr a -> x_al s !! a = Some l -> task_link s a) ->
  wp false (respond cfg ra unl q r) (fun _ => linv) s ev.
Proof.
  intros HS Hq Hm H Hst Hpr Hw (p & l & Es & Hp & Ho) Hal. pose proof (alive_answered s0 q p l H Hp Ho) as HA. cbv zeta in HA. open_sane HS.
  assert (E1 : x_st s = AInitializing) by by subst s. assert (E2 : x_prog s = false) by by subst s. assert (E3 : x_ireq s = x_ireq s0) by by subst s.
  destruct q; cbn [respond may_answer] in *; rewrite <- Es in HA.
  - destruct (L1 a Hq) as (cb & id & Ha). assert (Hi : x_ireq s = true).
    { rewrite E3. destruct Hw as [[Hc _]|[? _]]; [|done]. destruct (R4 Hst Hc) as (E & _). by rewrite E, lookup_empty in Ha. }
    wp_use (apply (on_link_response_live a _ (SRec cb (SLinking id))); try done).
    + by subst s.
    + cbn. destruct cb; try done. destruct (K Hst a n id Ha) as (l' & ?); [done|]. exists l'. by subst s.
    + intros [] s1 ev1. apply going_linv.
  - destruct Hm as [_ Hm]. wp_use (apply on_registration_live; try done; congruence). intros [] s1 ev1. apply going_linv.
  - destruct Hm as [_ Hm]. wp_use (apply on_discovery_live; try done); [congruence| | |].
    + subst s. cbn. destruct (x_lked s0) eqn:E; [done|]. by destruct (A3 eq_refl n) as [_ []].
    + intros a l' Ea. destruct r; try done. injection Ea as ->. by apply (Hal n).
    + intros [] s1 ev1. apply going_linv.
  - assert (HL : forall c m e, linv (w_cl s (delete c m)) e /\ linv s e).
    { intros c' m e. split; intros _ _; subst s; done. }
    unfold on_unlink_response. wps; [exact (proj2 (HL 0 ∅ _))|]. apply down_resume_live; [done|exact (proj1 (HL c _ _))].
Qed.
Lemma aprog_live o s ev : sane ra None s -> prudent ra s o -> patient s o -> x_st s = AInitializing -> ~ failed ev -> linv s ev ->
  wp false (aprog cfg ra unl o) (fun _ s' ev' => linv s' ev' \/ exists a b, EvState a b ∈ ev') s ev.
Proof.
  intros HS Hp Hpt Hst Hf HI. destruct (HI Hst Hf) as (H & Hpr & Hw). unfold aprog. wps; [by left|]. clear Heqb.
  assert (HE : forall e, linv s (ev ++ e)) by (intros e _ _; done).
  destruct o; cbn [astep_live prudent patient] in *.
  - wps; [|by apply bool_decide_eq_false in H0]. wp_use (by apply init_continue_live). intros [] s1 ev1 [? _]. left. by apply going_linv, polled_going.
  - destruct Hp as [Hc Hp]. specialize (Hc Hst). destruct Hw as [[? _]|[Hi Hw]]; [congruence|]. unfold user. destruct u; cbn [act].
    + apply wp_bnd, wp_bnd, link_live. intros Ha. wps; [done|]. left. intros _ _. split; [by apply alive_link|]. split; [done|]. right. split; [done|]. left.
      apply bool_decide_eq_true. eexists a, _. cbn. split; [apply lookup_insert|done].
    + done.
    + done.
    + assert (HA : forall f g, has_any (w_d (w_i (w_res s (<[i:=held s i + 1]> (x_res s))) f) g) = true).
      { intros f g. apply has_any_spec. exists i. unfold held. cbn. rewrite lookup_insert. cbn. lia. }
      unfold acquire, reaction_init, reaction_down. wps; try done.
      * left. intros _ _. split; [|split; [done|right; split; [done|right; right; right; left; apply HA]]]. open_alive H. split_and!; try assumption.
        intros p Hp'. cbn. unfold updp. destruct (decide (p = PRs)); [done|]. by apply G5.
      * apply bool_decide_eq_false in Heqb. done.
      * apply bool_decide_eq_false in Heqb. done.
    + unfold release. wps.
      * unfold resume. wp1. cbn [x_st w_res]. rewrite Hst. wp_use (by apply init_continue_live). intros [] s1 ev1 [? _]. left. by apply going_linv, polled_going.
      * left. intros _ _. split; [done|]. split; [done|]. right. split; [done|]. cbn [x_prog w_res] in H1. rewrite Hpr in H1. rewrite andb_true_r in H1. apply negb_false_iff in H1. by right; right; right; left.
    + done.
  - wp1. destruct (x_pend s !! id) as [q|] eqn:E; [|wps; by left]. destruct Hp as [Hm Hr]. wps. eapply wp_mono; [apply (respond_live q r _ s); try done|].
    + left. eauto.
    + exists (delete id (x_pend s)), (x_late s). split; [by destruct s|]. split; [by intros j x [_ ?]%lookup_delete_Some|].
      intros x [(j & Hj)|Hx]; [|by right; right]. destruct (decide (j = id)) as [->|Hne]; [left; congruence|]. right. left. exists j. cbn. by rewrite lookup_delete_ne.
    + intros n a l -> -> Hl. cbn in Hl. by rewrite Hl in Hpt.
    + intros [] s1 ev1 ?. by left.
  - wp1. destruct (x_pend s !! id) as [q|] eqn:E; [|wps; by left]. wps. left. intros _ _. split; [|done]. open_alive H.
    set (s' := w_late _ _). assert (HO : forall x, out s x -> out s' x).
    { intros x [(j & Hj)|Hx]; [|right; cbn; apply elem_of_app; by left]. destruct (decide (j = id)) as [->|Hne].
      - right. cbn. apply elem_of_app. right. apply elem_of_list_singleton. congruence.
      - left. exists j. cbn. by rewrite lookup_delete_ne. }
    split_and!; try assumption.
    + intros j x. cbn. intros [_ ?]%lookup_delete_Some. eauto.
    + intros n Hn. destruct (G1 n Hn) as [[? ?]|?]; auto.
    + intros n t Hn. specialize (G2 n t Hn). destruct (t_addr t); [done|]. destruct G2 as [[? ?]|?]; auto.
  - wp1. destruct (x_late s) as [|q l] eqn:E; [wps; by left|]. wps. eapply wp_mono; [apply (respond_live q RpErr _ s); try done|].
    + right. rewrite E. by left.
    + exists (x_pend s), l. split; [by destruct s|]. split; [done|]. intros x [(j & Hj)|Hx]; [right; left; by exists j|]. rewrite E in Hx. apply elem_of_cons in Hx as [?|?]; [by left|by right; right].
    + intros [] s1 ev1 ?. by left.
  - unfold on_link_request. wps; left; by intros _ _.
  - unfold on_unlink_notify. wps. destruct (x_cl s !! c) as [x|] eqn:E; [|wps; by left]. destruct x as [r| |id]; wps.
    + apply down_resume_live; [done|]. left. by intros _ _.
    + apply down_resume_live; [done|]. left. by intros _ _.
    + unfold discard_request. wps. apply down_resume_live; [done|]. left. intros _ _. split; [|done]. destruct Hp as [q Hq]. pose proof HS as (_ & _ & (_ & C2 & _) & _).
      destruct (C2 c id E) as [_ Hc]. rewrite (Hc q Hq) in Hq.
      pose proof (alive_answered s (QUnlink c) (delete id (x_pend s)) (x_late s) H) as HA. cbv zeta in HA. cbv beta iota in HA.
      replace (w_late (w_pend s (delete id (x_pend s))) (x_late s)) with (w_pend s (delete id (x_pend s))) in HA by by destruct s. apply HA.
      * by intros j x [_ ?]%lookup_delete_Some.
      * intros x [(j & Hj)|Hx]; [|by right; right]. destruct (decide (j = id)) as [->|Hne]; [left; congruence|]. right. left. exists j. cbn. by rewrite lookup_delete_ne.
  - wp_use (apply forget_link_live; try done). { intros x Hx. by rewrite Hx in Hp. } intros [] s1 ev1 ?. by left.
  - wps.
    + wp_use (apply init_continue_live). { rewrite !andb_true_iff, !bool_decide_eq_true in H0. destruct H0 as (((? & Hc) & ?) & ?). open_alive H. split_and!; try assumption. cbn in *. by rewrite Hc. }
      intros [] s1 ev1 [? _]. left. by apply going_linv, polled_going.
    + left. intros _ _. split; [|split; [done|]].
      * open_alive H. split_and!; try assumption. cbn. destruct (x_conf s PSt); [|done]. intros Hs. by rewrite G4.
      * destruct Hw as [?|[Hi Hw]]; [by left|]. right. split; [done|]. destruct Hw as [?|[?|[?|[?|[Ht Hc]]]]]; [by left|by right; left|by right; right; left|by right; right; right; left|].
        right; right; right; right. split; [|done]. intros Ht'. cbn in Ht'. open_alive H. rewrite Hc in G4.
        assert (Hs : x_sub s = true) by (destruct (x_sub s); [done|by rewrite G4 in Ht]). cbn in H0. rewrite Hs, Hc, !bool_decide_true in H0 by done. done.
  - wps; [|by left]. apply bool_decide_eq_true in H0. congruence.
  - unfold set_state. wps; [|by left]. wp_use (apply wp_ext). intros [] s1 ev1 [e ->]. right. eexists _, _. rewrite !elem_of_app. left. right. by left.
  - wps. apply down_resume_live; [done|]. left. by intros _ _.
Qed.
Lemma step_live o s ev (HC : prudent_cfg ra cfg) : prudent ra s o /\ patient s o -> reach False s ev /\ fine ra s /\ linv s ev ->
  wp true (aprog cfg ra unl o) (fun _ s' ev' => reach False s' ev' /\ fine ra s' /\ linv s' ev') s ev.
Proof.
  intros [Hp Hpt] (HR & HF & HI).
  assert (W1 : wp true (aprog cfg ra unl o) (fun _ s' _ => fine ra s') s ev).
  { destruct HF as [Hs|Hs]; [|by apply aprog_ok]. unfold aprog. wps; [by left|]. by apply bool_decide_eq_false in Heqb. }
  assert (W2 : wp false (aprog cfg ra unl o) (fun _ => reach False) s ev) by (by apply aprog_reach).
  pose proof (wp_ext (aprog cfg ra unl o) s ev) as W3.
  assert (W4 : wp false (aprog cfg ra unl o) (fun _ s' ev' => linv s' ev' \/ exists a b, EvState a b ∈ ev') s ev).
  { destruct (decide (x_st s = AInitializing)) as [Hst|Hst].
    - destruct (decide (Exists (fun x => match x with EvInitErr _ => true | _ => false end = true) ev)) as [Hf|Hf].
      + eapply wp_mono; [exact W3|]. intros [] s1 ev1 [e ->]. left. intros _ []. apply failed_app. apply Exists_exists in Hf as ([] & Hx & ?); try done. by exists p.
      + destruct HF as [?|HS]; [congruence|]. apply aprog_live; try done. intros [p Hx]. apply Hf, Exists_exists. by exists (EvInitErr p).
    - eapply wp_mono; [exact W3|]. intros [] s1 ev1 [e ->]. right.
      destruct (decide (Exists (fun x => match x with EvState _ _ => true | _ => false end = true) ev)) as [Hf|Hf].
      + apply Exists_exists in Hf as ([] & Hx & ?); try done. eexists _, _. apply elem_of_app. by left.
      + destruct Hst. apply (reach_quiet False s ev HR). intros a b Hx. apply Hf, Exists_exists. by exists (EvState a b). }
  pose proof (wp_and _ _ _ _ _ _ W1 (wp_and _ _ _ _ _ _ W2 W4)) as W. eapply wp_mono; [exact W|]. intros [] s1 ev1 (H1 & H2 & H4). split_and!; [done..|].
  destruct H4 as [?|(a & b & Hx)]; [done|]. intros Hst. by destruct (proj1 (reach_quiet False s1 ev1 H2) Hst a b).
Qed.
Lemma run_live ops (HC : prudent_cfg ra cfg) : guarded (astep cfg ra unl) (fun s o => prudent ra s o /\ patient s o) ainit ops -> exists s ev, run (astep cfg ra unl) ainit ops = Ok (s, ev) /\
  reach False s ev /\ fine ra s /\ linv s ev.
Proof.
  intros Hg. destruct (wp_run_safe (aprog cfg ra unl) (fun s o => prudent ra s o /\ patient s o) (fun s ev => reach False s ev /\ fine ra s /\ linv s ev)) with (ops := ops) (s := ainit) (ev := [] : list aev) as (s & ev & E & HI).
  - intros o s ev Ho H. by apply step_live.
  - split; [constructor|]. split; [right; apply sane_ainit|]. intros _ _. split; [|by split; [|left]].
    split_and!; try done.
    intros p Hp. unfold early in Hp. rewrite !elem_of_cons, elem_of_nil in Hp. destruct Hp as [->|[->|[->|[]]]]; done.
  - done.
  - by exists s, ev.
Qed.
Lemma progress ops s ev (HC : prudent_cfg ra cfg) : guarded (astep cfg ra unl) (fun s o => prudent ra s o /\ patient s o) ainit ops -> run (astep cfg ra unl) ainit ops = Ok (s, ev) ->
  x_st s = AInitializing -> x_ireq s = true -> unfailed ev ->
  (exists q, out s q /\ ~ exists c, q = QUnlink c) \/ (exists i, held s i <> 0) \/ x_trk s <> 0%nat.
Proof.
  intros Hg Hr Hst Hi Hf. destruct (run_live ops HC Hg) as (s' & ev' & E & _ & HF & HI). rewrite Hr in E. injection E as <- <-.
  destruct HF as [?|HS]; [congruence|]. destruct (HI Hst) as (H & _ & Hw). { intros [p Hp]. by apply (Hf p). }
  destruct Hw as [[_ ?]|[_ Hw]]; [congruence|]. open_sane HS.
  assert (HL : forall a cb id, x_sv s !! a = Some (SRec cb (SLinking id)) -> exists q, out s q /\ ~ exists c, q = QUnlink c).
  { intros a cb id Ha. exists (QLink a). split; [|by intros [c ?]]. destruct (L2 a cb id Ha) as [?|?]; [done|left; by exists id|by right]. }
  clear T A1 A2 A3 A4. open_alive H.
  assert (HRL : x_lked s = false /\ x_lking s = true -> exists q, out s q /\ ~ exists c, q = QUnlink c).
  { intros [E1 E2]. destruct (G3 E1 E2) as [id Hid]. eauto. }
  destruct Hw as [Hw|[Hw|[Hw|[Hw|[Hw _]]]]].
  - left. apply bool_decide_eq_true in Hw as (a & x & Ha & Hx). destruct x as [cb []]; try done. eauto.
  - left. apply map_choose in Hw as (n & t & Hn). specialize (G2 n t Hn). destruct (t_addr t) as [a|].
    + destruct G2 as [G2 _]. unfold task_link in G2. destruct (x_sv s !! a) as [[[] []]|] eqn:Ea; try done; eauto.
    + destruct G2 as [[_ Ho]|?]; [|by apply HRL]. exists (QDisc n). split; [done|]. by intros [c ?].
  - left. apply bool_decide_eq_true in Hw as (n & y & Hn & ->). destruct (G1 n Hn) as [[_ Ho]|?]; [|by apply HRL]. exists (QReg n). split; [done|]. by intros [c ?].
  - right; left. apply has_any_spec in Hw as [i Hw]. exists i. lia.
  - by right; right.
Qed.
End live.
