(** Theorems about subscriptions and the teardown of an actor: C06, C43, C44, C45.
    In all of them [n] plugins with [base] own subscriptions each, [ext] the
    addresses of the other context, [hold] whether a plugin behind init_shutdown
    delays the shutdown, and [ops] anything the actor, its user, its supervisor
    and the other context do, are arbitrary. *)
From stdpp Require Import base list gmap.
From Verif Require Import Base Prog TeardownModel TeardownSpec TeardownProofs TeardownSteps TeardownRun TeardownFacts.
Open Scope nat_scope.

(** An actor as in actor_base.h: eight plugins; addresses from 10 on belong to the
    other context. *)
Definition plugs (p : nat) : nat := match p with 2 => 2 | 3 => 3 | 4 => 2 | 5 => 3 | 7 => 1 | _ => 0 end.
Definition away (a : N) : bool := bool_decide (10 <= a)%N.
Lemma plugs_setup : setup 8 plugs away.
Proof. split; [lia|cbn; lia|by vm_compute]. Qed.
Definition usageb (s : dstate) (o : dop) : bool := bool_decide (usage away s o).
Lemma usageb_ok s o : usageb s o = true -> usage away s o.
Proof. apply bool_decide_eq_true_1. Qed.
Ltac used_ex := apply (guardedb_sound _ usageb _ usageb_ok); vm_compute; reflexivity.
Ltac ran_ex := eexists _, _; split; [vm_compute; reflexivity|].
Ltac by_bool := apply (bool_decide_unpack _); vm_compute; exact I.

Lemma ordered_run : forall n base ext hold ops s ev, setup n base ext -> used n base ext hold ops -> ran n base ext hold ops s ev -> ordered n ev.
Proof. intros * Hs Hu Hr. destruct (run_inv_ok _ _ _ Hs _ _ _ _ Hu Hr) as [G _]. apply (g_ord _ _ _ _ _ _ G). Qed.
Lemma take_elem {A} (l : list A) k j x : l !! j = Some x -> j < k -> x ∈ take k l.
Proof. intros H Hj. apply elem_of_list_lookup. exists j. by rewrite lookup_take. Qed.
Lemma elem_take {A} (l : list A) k x : x ∈ take k l -> exists j, l !! j = Some x /\ j < k.
Proof. intros [j Hj]%elem_of_list_lookup. apply lookup_take_Some in Hj as [? ?]. by exists j. Qed.

(** ** C06 *)
(** The decision for one forwarded call: the handler is called iff the actor is in
    the supervisor's list of living actors, not SHUT_DOWN, and its lifetime plugin
    still has a point for that type of handler at that address; nothing else
    changes either way. *)
Lemma c06_decision : forall n ext s x m r, d_q s = MCall x m :: r ->
  ((d_alive s = true /\ d_st s <> DDown /\ d_life s = true /\ exists y, y ∈ d_points s /\ key s y = key s x) /\ dstep n ext s ODeliver = Ok (w_q s r, [EInvoke x m]))
  \/ (~ (d_alive s = true /\ d_st s <> DDown /\ d_life s = true /\ exists y, y ∈ d_points s /\ key s y = key s x) /\ dstep n ext s ODeliver = Ok (w_q s r, [EDrop x m])).
Proof.
  intros n ext s x m r Hq. unfold dstep, to_step. cbn -[bool_decide]. rewrite Hq. cbn -[bool_decide].
  change (same (w_q s r) x) with (same s x).
  destruct (d_alive s) eqn:Ha; cbn -[bool_decide]; [|right; split; [intros [? _]; done|done]].
  case_bool_decide as Hd; cbn -[bool_decide]; [right; split; [intros (_ & ? & _); done|done]|].
  destruct (d_life s) eqn:Hl; cbn -[bool_decide]; [|right; split; [intros (_ & _ & ? & _); done|done]].
  case_bool_decide as Hf.
  - left. split; [|done]. split; [done|]. split; [done|]. split; [done|]. destruct Hf as [y Hy]. apply find_last_some in Hy as [H1 H2]. apply same_spec in H2. by exists y.
  - right. split; [|done]. intros (_ & _ & _ & y & Hy & Hk). apply Hf. destruct (find_last (same s x) (d_points s)) as [z|] eqn:E; [by exists z|].
    apply (find_last_none _ _ E) in Hy. apply same_spec in Hk. congruence.
Qed.
Theorem C06_decision : forall n ext s x m r, d_q s = MCall x m :: r ->
  ((d_alive s = true /\ d_st s <> DDown /\ d_life s = true /\ exists y, y ∈ d_points s /\ key s y = key s x) /\ dstep n ext s ODeliver = Ok (w_q s r, [EInvoke x m]))
  \/ (~ (d_alive s = true /\ d_st s <> DDown /\ d_life s = true /\ exists y, y ∈ d_points s /\ key s y = key s x) /\ dstep n ext s ODeliver = Ok (w_q s r, [EDrop x m])).
Proof. exact c06_decision. Qed.
(** In every run, a handler is called only for a subscription made before, and only
    before the actor starts to deactivate its plugins: so never in SHUT_DOWN and
    never after the removal.  Missing from the property: the subscription may have
    been taken back by unsubscribe(), see C06_refuted. *)
Lemma c06_partial : forall n base ext hold ops s ev, setup n base ext -> used n base ext hold ops -> ran n base ext hold ops s ev ->
  forall k x m, ev !! k = Some (EInvoke x m) -> ESub x ∈ take k ev /\ EDeact ∉ take k ev /\ EDown ∉ take k ev /\ ERemove ∉ take k ev.
Proof.
  intros * Hs Hu Hr k x m Hk. pose proof (ordered_run _ _ _ _ _ _ _ Hs Hu Hr) as O. pose proof (O _ _ Hk) as [H1 H2].
  assert (H3 : EDown ∉ take k ev).
  { intros (j & Hj & Hl)%elem_take. apply O in Hj as [Hj _]. apply H2. apply elem_take in Hj as (i & Hi & ?). eapply take_elem; [done|lia]. }
  split; [done|]. split; [done|]. split; [done|]. intros (j & Hj & Hl)%elem_take. apply O in Hj. apply H3. apply elem_take in Hj as (i & Hi & ?). eapply take_elem; [done|lia].
Qed.
Theorem C06_partial : forall n base ext hold ops s ev, setup n base ext -> used n base ext hold ops -> ran n base ext hold ops s ev ->
  forall k x m, ev !! k = Some (EInvoke x m) -> ESub x ∈ take k ev /\ EDeact ∉ take k ev /\ EDown ∉ take k ev /\ ERemove ∉ take k ev.
Proof. exact c06_partial. Qed.
(** As long as the user does not call unsubscribe(), the full property holds: the
    subscription is still in force. *)
Lemma c06_kept : forall n base ext hold ops s ev, setup n base ext -> used n base ext hold ops -> ran n base ext hold ops s ev ->
  (forall t a, OUnsubscribe t a ∉ ops) -> forall k x m, ev !! k = Some (EInvoke x m) -> EUnsubReq x ∉ take k ev /\ EGone x ∉ take k ev.
Proof.
  intros * Hs Hu Hr No k x m Hk.
  cut (EUnsubReq x ∉ take k ev).
  { intros H. split; [done|]. intros (j & Hj & Hl)%elem_take. apply (ordered_run _ _ _ _ _ _ _ Hs Hu Hr) in Hj as [Hj _]. apply H. apply elem_take in Hj as (i & Hi & ?). eapply take_elem; [done|lia]. }
  intros (j & Hj & Hl)%elem_take. destruct (c06_partial _ _ _ _ _ _ _ Hs Hu Hr _ _ _ Hk) as (_ & Hd & _).
  apply (calm_run n base ext Hs hold ops s ev Hu Hr No) in Hj. apply Hd. apply elem_take in Hj as (i & Hi & ?). eapply take_elem; [done|lia].
Qed.
Theorem C06_kept : forall n base ext hold ops s ev, setup n base ext -> used n base ext hold ops -> ran n base ext hold ops s ev ->
  (forall t a, OUnsubscribe t a ∉ ops) -> forall k x m, ev !! k = Some (EInvoke x m) -> EUnsubReq x ∉ take k ev /\ EGone x ∉ take k ev.
Proof. exact c06_kept. Qed.
Definition visit : list dop := [OSubStarter 1 10; OFDeliver; OPost 10 5; OFDeliver; ODeliver; OPost 10 6; OShutdown; OFDeliver] ++ replicate 17 ODeliver ++ [ORemove].
Example C06_visit : used 8 plugs away false visit /\ exists s ev, ran 8 plugs away false visit s ev /\
  take 3 ev = [ESub 14; EInvoke 14 5; EDeact] /\ EDrop 14 6 ∈ ev /\ last ev = Some ERemove.
Proof. split; [used_ex|]. ran_ex. split; [reflexivity|]. split; [by_bool|reflexivity]. Qed.
(** After unsubscribe() the handler is still called: the plugin and the map of the
    supervisor forget the subscription, lifetime's list does not. *)
Theorem C06_refuted : exists ops s ev, used 8 plugs away false ops /\ ran 8 plugs away false ops s ev /\ d_st s = DUp /\
  ev = [ESub 14; EUnsubReq 14; EGone 14; EInvoke 14 5].
Proof.
  exists [OSubStarter 1 10; OFDeliver; OUnsubscribe 1 10; OPost 10 5; OFDeliver; ODeliver; ODeliver]. eexists _, _.
  split; [used_ex|]. split; [vm_compute; reflexivity|]. split; reflexivity.
Qed.

(** ** C43 *)
(** No assertion fails and no null pointer is used. *)
Lemma c43_no_failure : forall n base ext hold ops, setup n base ext -> used n base ext hold ops -> exists s ev, ran n base ext hold ops s ev.
Proof. intros * Hs. by apply run_safe_ok. Qed.
Theorem C43_no_failure : forall n base ext hold ops, setup n base ext -> used n base ext hold ops -> exists s ev, ran n base ext hold ops s ev.
Proof. exact c43_no_failure. Qed.
(** In SHUT_DOWN nothing is subscribed any more, no plugin is active and no message
    about subscriptions is under way; every subscription ever made was taken back. *)
Lemma c43_empty : forall n base ext hold ops s ev, setup n base ext -> used n base ext hold ops -> ran n base ext hold ops s ev -> d_st s = DDown ->
  d_map s = [] /\ d_points s = [] /\ (forall p, d_own s p = []) /\ d_deact s = ∅ /\ pending s = [] /\
  (forall x, x < List.length (d_infos s) -> EGone x ∈ ev) /\ (forall x, ESub x ∈ ev -> EGone x ∈ ev).
Proof.
  intros * Hs Hu Hr Hd. pose proof (run_inv_ok _ _ _ Hs _ _ _ _ Hu Hr) as I. pose proof (fun x => down_dead n ext s ev x I Hd) as Hl. pose proof (down_phC n ext s ev I Hd) as C. destruct I as [G _].
  assert (HG : forall x, x < List.length (d_infos s) -> EGone x ∈ ev) by (intros x Hx; apply (g_eg _ _ _ _ _ _ G); split; [done|apply Hl]).
  split. { apply list_nil. intros x Hx. apply (g_map _ _ _ _ _ _ G) in Hx as [Hx _]. by apply (Hl x). }
  split; [apply (pc_points _ _ C)|]. split; [apply (pc_own _ _ C)|]. split; [apply (pc_deact _ _ C)|].
  split. { apply list_nil. intros x Hx. assert (x ∈ [] ++ pending s) as Hx' by done. apply (g_msg _ _ _ _ _ _ G) in Hx' as [Hx' _]. by apply (Hl x). }
  split; [done|]. intros x Hx. by apply HG, (g_esl _ _ _ _ _ _ G).
Qed.
Theorem C43_empty : forall n base ext hold ops s ev, setup n base ext -> used n base ext hold ops -> ran n base ext hold ops s ev -> d_st s = DDown ->
  d_map s = [] /\ d_points s = [] /\ (forall p, d_own s p = []) /\ d_deact s = ∅ /\ pending s = [] /\
  (forall x, x < List.length (d_infos s) -> EGone x ∈ ev) /\ (forall x, ESub x ∈ ev -> EGone x ∈ ev).
Proof. exact c43_empty. Qed.
(** Once the other context has worked off its queue, it has forgotten the actor,
    too. *)
Lemma c43_foreign : forall n base ext hold ops s ev, setup n base ext -> used n base ext hold ops -> ran n base ext hold ops s ev -> d_st s = DDown ->
  (d_fq s = [] -> d_fpts s = [] /\ d_fmap s = []) /\
  exists s' e, run (dstep n ext) s (replicate (List.length (d_fq s)) OFDeliver) = Ok (s', e) /\ d_fpts s' = [] /\ d_fmap s' = [].
Proof.
  intros * Hs Hu Hr Hd. pose proof (run_inv_ok _ _ _ Hs _ _ _ _ Hu Hr) as I. split; [by eapply down_foreign|].
  destruct (foreign_drain n base ext Hs s ev I Hd) as (s' & e & H1 & _ & _ & H2 & H3). by exists s', e.
Qed.
Theorem C43_foreign : forall n base ext hold ops s ev, setup n base ext -> used n base ext hold ops -> ran n base ext hold ops s ev -> d_st s = DDown ->
  (d_fq s = [] -> d_fpts s = [] /\ d_fmap s = []) /\
  exists s' e, run (dstep n ext) s (replicate (List.length (d_fq s)) OFDeliver) = Ok (s', e) /\ d_fpts s' = [] /\ d_fmap s' = [].
Proof. exact c43_foreign. Qed.
(** SHUT_DOWN is reached once, after every plugin was deactivated exactly once. *)
Lemma c43_order : forall n base ext hold ops s ev, setup n base ext -> used n base ext hold ops -> ran n base ext hold ops s ev ->
  (forall k, ev !! k = Some EDown -> EDeact ∈ take k ev /\ EDown ∉ take k ev /\ forall p, p < n -> EPlugDown p ∈ take k ev) /\
  (forall k p, ev !! k = Some (EPlugDown p) -> EDeact ∈ take k ev /\ EPlugDown p ∉ take k ev) /\
  (forall k, ev !! k = Some EDeact -> EDeact ∉ take k ev) /\
  (forall k x, ev !! k = Some (ESub x) -> EDeact ∉ take k ev) /\
  (forall k, ev !! k = Some ERemove -> EDown ∈ take k ev).
Proof.
  intros * Hs Hu Hr. pose proof (ordered_run _ _ _ _ _ _ _ Hs Hu Hr) as O.
  split; [intros k Hk; exact (O _ _ Hk)|]. split; [intros k p Hk; exact (O _ _ Hk)|]. split; [intros k Hk; exact (O _ _ Hk)|].
  split; [intros k x Hk; exact (proj2 (O _ _ Hk))|]. intros k Hk. exact (O _ _ Hk).
Qed.
Theorem C43_order : forall n base ext hold ops s ev, setup n base ext -> used n base ext hold ops -> ran n base ext hold ops s ev ->
  (forall k, ev !! k = Some EDown -> EDeact ∈ take k ev /\ EDown ∉ take k ev /\ forall p, p < n -> EPlugDown p ∈ take k ev) /\
  (forall k p, ev !! k = Some (EPlugDown p) -> EDeact ∈ take k ev /\ EPlugDown p ∉ take k ev) /\
  (forall k, ev !! k = Some EDeact -> EDeact ∉ take k ev) /\
  (forall k x, ev !! k = Some (ESub x) -> EDeact ∉ take k ev) /\
  (forall k, ev !! k = Some ERemove -> EDown ∈ take k ev).
Proof. exact c43_order. Qed.
Definition busy : list dop := [OSubscribe 1 0; OSubStarter 2 0; OSubStarter 2 10; OFDeliver; OSubStarter 3 11; OUnsubscribe 2 0; OShutdown; ODeliver; OFDeliver; OResume] ++ replicate 20 ODeliver ++ [ORemove; OFDeliver; OFDeliver].
Example C43_busy : used 8 plugs away true busy /\ exists s ev, ran 8 plugs away true busy s ev /\ d_st s = DDown /\ d_fpts s = [] /\
  EFGone 16 ∈ ev /\ EFGone 17 ∈ ev /\ EGone 14 ∈ ev /\ take 6 ev = [ESub 14; ESub 15; ESub 16; ESub 17; EUnsubReq 15; EGone 15].
Proof. split; [used_ex|]. ran_ex. split; [reflexivity|]. split; [reflexivity|]. split; [by_bool|]. split; [by_bool|]. split; [by_bool|reflexivity]. Qed.
(** A subscription at an address of another context made with subscribe() of the
    actor, not through its starter plugin, fails an assertion when it is taken back:
    by unsubscribe() or by the shutdown. *)
Theorem C43_direct_refuted :
  run (dstep 8 away) (dinit 8 plugs false) [OSubscribe 1 10; OFDeliver; OUnsubscribe 1 10; ODeliver] = AssertFail /\
  run (dstep 8 away) (dinit 8 plugs false) ([OSubscribe 1 10; OFDeliver; OShutdown] ++ replicate 14 ODeliver) = AssertFail /\
  exists s ev, run (dstep 8 away) (dinit 8 plugs false) [OSubscribe 1 10; OFDeliver; OUnsubscribe 1 10] = Ok (s, ev).
Proof. split; [vm_compute; reflexivity|]. split; [vm_compute; reflexivity|]. eexists _, _. vm_compute. reflexivity. Qed.

(** ** C44 *)
(** A shutdown which the plugins behind init_shutdown agreed to always has a
    message under way, and delivering messages brings it to its end, whatever the
    actor and the others did before. *)
Lemma c44_progress : forall n base ext hold ops s ev, setup n base ext -> used n base ext hold ops -> ran n base ext hold ops s ev ->
  d_st s = DShutting -> d_hold s = false -> pending s <> [].
Proof.
  intros * Hs Hu Hr Hd Hh. destruct (run_inv_ok _ _ _ Hs _ _ _ _ Hu Hr) as [G [A|[[B L]|C]]].
  - destruct (pa_st _ _ _ _ A) as [E|[_ E]]; [congruence|]. rewrite E in Hh by done. done.
  - by eapply phB_unsub.
  - rewrite (pc_st _ _ C) in Hd. done.
Qed.
Theorem C44_progress : forall n base ext hold ops s ev, setup n base ext -> used n base ext hold ops -> ran n base ext hold ops s ev ->
  d_st s = DShutting -> d_hold s = false -> pending s <> [].
Proof. exact c44_progress. Qed.
Lemma c44_completes : forall n base ext hold ops s ev, setup n base ext -> used n base ext hold ops -> ran n base ext hold ops s ev ->
  d_st s = DShutting -> d_hold s = false ->
  exists k s' e, k <= List.length (d_q s) + 2 * List.length (d_infos s) /\ run (dstep n ext) s (replicate k ODeliver) = Ok (s', e) /\ d_st s' = DDown.
Proof.
  intros * Hs Hu Hr Hd Hh. destruct (finish n base ext Hs s ev (run_inv_ok _ _ _ Hs _ _ _ _ Hu Hr) Hd Hh) as (k & s' & e & H1 & H2 & H3 & _).
  exists k, s', e. split; [|done]. unfold weight in H1. pose proof (fresh_le (d_infos s)). lia.
Qed.
Theorem C44_completes : forall n base ext hold ops s ev, setup n base ext -> used n base ext hold ops -> ran n base ext hold ops s ev ->
  d_st s = DShutting -> d_hold s = false ->
  exists k s' e, k <= List.length (d_q s) + 2 * List.length (d_infos s) /\ run (dstep n ext) s (replicate k ODeliver) = Ok (s', e) /\ d_st s' = DDown.
Proof. exact c44_completes. Qed.
Example C44_busy : exists s ev, used 8 plugs away true (take 10 busy) /\ ran 8 plugs away true (take 10 busy) s ev /\ d_st s = DShutting /\ d_hold s = false /\ List.length (d_q s) = 14.
Proof. eexists _, _. split; [used_ex|]. split; [vm_compute; reflexivity|]. done. Qed.
(** Subscribing a handler again before its unsubscription is confirmed: the shutdown
    of the actor never ends.  The confirmation takes back the new subscription, and the
    old one stays marked as being taken back, so it is not asked for any more. *)
Definition again : list dop := [OSubscribe 1 0; OUnsubscribe 1 0; OSubscribe 1 0; ODeliver; OShutdown] ++ replicate 12 ODeliver.
Lemma c44_rest : forall n ext k s, d_q s = [] -> run (dstep n ext) s (replicate k ODeliver) = Ok (s, []).
Proof.
  intros n ext k s Hq. induction k as [|k IH]; [reflexivity|]. cbn [replicate run].
  assert (E : dstep n ext s ODeliver = Ok (s, [])). { cbv [dstep to_step dprog bnd get]. cbn. rewrite Hq. reflexivity. }
  rewrite E. cbn. rewrite IH. reflexivity.
Qed.
Theorem C44_again_refuted : exists s ev, ran 8 plugs away false again s ev /\ d_st s = DShutting /\ d_hold s = false /\ d_fq s = [] /\
  d_points s = [14] /\ i_un (info s 14) = true /\ forall k, run (dstep 8 away) s (replicate k ODeliver) = Ok (s, []).
Proof.
  eexists _, _. split; [vm_compute; reflexivity|]. do 5 (split; [reflexivity|]). intros k. apply c44_rest. reflexivity.
Qed.
(** A second agreement after lifetime has let the actor go fails an assertion or
    finishes the shutdown too early: C29 excludes it. *)
Example C44_agree_once : run (dstep 8 away) (dinit 8 plugs false) ([OShutdown] ++ replicate 11 ODeliver ++ [OResume]) = AssertFail.
Proof. vm_compute. reflexivity. Qed.

(** ** C45 *)
(** Nothing is forgotten which was not asked to be, and nothing twice. *)
Lemma c45_requested : forall n base ext hold ops s ev, setup n base ext -> used n base ext hold ops -> ran n base ext hold ops s ev ->
  forall k x, (ev !! k = Some (EGone x) -> EUnsubReq x ∈ take k ev /\ EGone x ∉ take k ev) /\ (ev !! k = Some (EUnsubReq x) -> EUnsubReq x ∉ take k ev) /\
  (ev !! k = Some (EFGone x) -> EGone x ∈ take k ev).
Proof. intros * Hs Hu Hr k x. pose proof (ordered_run _ _ _ _ _ _ _ Hs Hu Hr) as O. split; [intros Hk; exact (O _ _ Hk)|]. split; intros Hk; exact (O _ _ Hk). Qed.
Theorem C45_requested : forall n base ext hold ops s ev, setup n base ext -> used n base ext hold ops -> ran n base ext hold ops s ev ->
  forall k x, (ev !! k = Some (EGone x) -> EUnsubReq x ∈ take k ev /\ EGone x ∉ take k ev) /\ (ev !! k = Some (EUnsubReq x) -> EUnsubReq x ∉ take k ev) /\
  (ev !! k = Some (EFGone x) -> EGone x ∈ take k ev).
Proof. exact c45_requested. Qed.
(** So what nobody asked to be taken back stays in force; a local one is in the map
    of the locality, so it still gets the messages (C02). *)
Lemma c45_kept : forall n base ext hold ops s ev, setup n base ext -> used n base ext hold ops -> ran n base ext hold ops s ev ->
  forall x, x < List.length (d_infos s) -> EUnsubReq x ∉ ev -> live s x /\ (isext ext s x = false -> x ∈ d_map s) /\ EGone x ∉ ev.
Proof.
  intros * Hs Hu Hr x Hx Hn. destruct (run_inv_ok _ _ _ Hs _ _ _ _ Hu Hr) as [G _].
  assert (Hl : live s x). { apply (g_dead _ _ _ _ _ _ G); [done|]. destruct (i_un (info s x)) eqn:E; [|done]. exfalso. apply Hn. by apply (g_eu _ _ _ _ _ _ G). }
  split; [done|]. split; [intros He; by apply (g_map _ _ _ _ _ _ G)|]. intros [_ H]%(g_eg _ _ _ _ _ _ G). done.
Qed.
Theorem C45_kept : forall n base ext hold ops s ev, setup n base ext -> used n base ext hold ops -> ran n base ext hold ops s ev ->
  forall x, x < List.length (d_infos s) -> EUnsubReq x ∉ ev -> live s x /\ (isext ext s x = false -> x ∈ d_map s) /\ EGone x ∉ ev.
Proof. exact c45_kept. Qed.
(** unsubscribe() asks for the subscription in force with that type of handler and
    that address, and for no other. *)
Lemma c45_names : forall n base ext hold ops s ev, setup n base ext -> used n base ext hold ops -> ran n base ext hold ops s ev ->
  forall t a s' e, dstep n ext s (OUnsubscribe t a) = Ok (s', e) ->
  (forall x, EUnsubReq x ∈ e -> live s x /\ key s x = (HUser t, a)) /\ (forall x, live s x -> key s x = (HUser t, a) -> x ∈ pending s').
Proof.
  intros * Hs Hu Hr t a s' e R. pose proof (run_inv_ok _ _ _ Hs _ _ _ _ Hu Hr) as I. split; intros x Hx.
  - by eapply unsub_names.
  - intros Hk. by eapply unsub_marks.
Qed.
Theorem C45_names : forall n base ext hold ops s ev, setup n base ext -> used n base ext hold ops -> ran n base ext hold ops s ev ->
  forall t a s' e, dstep n ext s (OUnsubscribe t a) = Ok (s', e) ->
  (forall x, EUnsubReq x ∈ e -> live s x /\ key s x = (HUser t, a)) /\ (forall x, live s x -> key s x = (HUser t, a) -> x ∈ pending s').
Proof. exact c45_names. Qed.
(** At all times, the subscriptions under way to be taken back are those in force
    which were asked for, each with one message. *)
Lemma c45_pending : forall n base ext hold ops s ev, setup n base ext -> used n base ext hold ops -> ran n base ext hold ops s ev ->
  NoDup (pending s) /\ forall x, x ∈ pending s <-> live s x /\ EUnsubReq x ∈ ev.
Proof.
  intros * Hs Hu Hr. destruct (run_inv_ok _ _ _ Hs _ _ _ _ Hu Hr) as [G _]. split; [apply (g_nodup _ _ _ _ _ _ G)|].
  intros x. pose proof (g_msg _ _ _ _ _ _ G x) as H. cbn in H. rewrite H. by rewrite (g_eu _ _ _ _ _ _ G).
Qed.
Theorem C45_pending : forall n base ext hold ops s ev, setup n base ext -> used n base ext hold ops -> ran n base ext hold ops s ev ->
  NoDup (pending s) /\ forall x, x ∈ pending s <-> live s x /\ EUnsubReq x ∈ ev.
Proof. exact c45_pending. Qed.
Example C45_again : exists s ev, used 8 plugs away false [OSubStarter 1 0; OUnsubscribe 1 0; ODeliver; OSubStarter 1 0; OUnsubscribe 1 0] /\
  ran 8 plugs away false [OSubStarter 1 0; OUnsubscribe 1 0; ODeliver; OSubStarter 1 0; OUnsubscribe 1 0] s ev /\ pending s = [15] /\ ev = [ESub 14; EUnsubReq 14; EGone 14; ESub 15; EUnsubReq 15].
Proof. eexists _, _. split; [used_ex|]. split; [vm_compute; reflexivity|]. done. Qed.
(** Subscribing again before the confirmation arrives loses the new subscription,
    and keeps the old one. *)
Theorem C45_again_refuted : exists s ev, ran 8 plugs away false [OSubStarter 1 0; OUnsubscribe 1 0; OSubStarter 1 0; ODeliver] s ev /\
  ev = [ESub 14; EUnsubReq 14; ESub 15; EGone 15] /\ EUnsubReq 15 ∉ ev /\ 15 ∉ d_map s /\ 14 ∈ d_map s.
Proof. eexists _, _. split; [vm_compute; reflexivity|]. split; [reflexivity|]. split; [by_bool|]. split; by_bool. Qed.
(** Two handlers of the same type at one address: unsubscribing one of them takes
    back the other. *)
Theorem C45_same_type_refuted : exists s ev, ran 8 plugs away false [OSubStarter 1 0; OSubStarter 1 0; OUnsubscribe 1 0; ODeliver] s ev /\
  ev = [ESub 14; ESub 15; EUnsubReq 15; EGone 15] /\ key s 14 = key s 15 /\ 14 ∈ d_map s.
Proof. eexists _, _. split; [vm_compute; reflexivity|]. split; [reflexivity|]. split; [reflexivity|]. by_bool. Qed.

Print Assumptions C06_decision.
Print Assumptions C06_partial.
Print Assumptions C06_kept.
Print Assumptions C06_refuted.
Print Assumptions C43_no_failure.
Print Assumptions C43_empty.
Print Assumptions C43_foreign.
Print Assumptions C43_order.
Print Assumptions C43_direct_refuted.
Print Assumptions C44_progress.
Print Assumptions C44_completes.
Print Assumptions C44_again_refuted.
Print Assumptions C45_requested.
Print Assumptions C45_kept.
Print Assumptions C45_names.
Print Assumptions C45_pending.
Print Assumptions C45_again_refuted.
Print Assumptions C45_same_type_refuted.
