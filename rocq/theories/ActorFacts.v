(** What is known of the actor when one of its events is emitted. *)
From stdpp Require Import base list gmap.
From Verif Require Import Base Prog ActorModel ActorSpec ActorMoves ActorReach ActorProofs.
Open Scope N_scope.

Ltac no_event :=
  let x := fresh "x" in let Hx := fresh "Hx" in
  intros x Hx;
  try match goal with HE : forall y, y ∈ ?e <-> exists n, _ |- _ => apply HE in Hx as (? & Hx & _) end;
  elems Hx; subst x; try done; try (match goal with d : bool |- _ => by destruct d end).
(** The position of an event in the events of a move. *)
Lemma one_pos {E} (x y : E) e1 e2 : [x] = e1 ++ y :: e2 -> e1 = [] /\ e2 = [] /\ y = x.
Proof. destruct e1 as [|? [|? ?]]; intros [=]; by subst. Qed.
Lemma two_pos {E} (x y z : E) e1 e2 : [x; y] = e1 ++ z :: e2 -> (e1 = [] /\ e2 = [y] /\ z = x) \/ (e1 = [x] /\ e2 = [] /\ z = y).
Proof. destruct e1 as [|? [|? [|? ?]]]; intros [=]; subst; auto. Qed.
Lemma pos_elem {E} (x : E) e e1 e2 : e = e1 ++ x :: e2 -> x ∈ e.
Proof. intros ->. apply elem_of_app. right. by left. Qed.
(** Discard the moves which do not emit the event. *)
Ltac other Hp := exfalso; let H := fresh in pose proof (pos_elem _ _ _ _ Hp) as H;
  try match goal with HE : forall y, y ∈ ?e <-> exists n, _ |- _ => apply HE in H as (? & H & _) end; revert H; clear;
  repeat match goal with |- context [if ?b then _ else _] => destruct b end;
  rewrite ?elem_of_app, ?elem_of_cons, ?elem_of_nil; naive_solver.

Section facts.
Context (D : Prop).
Notation reach := (reach D). Notation move := (move D).

Lemma ireq_wanted s ev : reach s ev -> init_wanted ev -> x_ireq s = true.
Proof.
  apply (reach_inv D (fun s ev => init_wanted ev -> x_ireq s = true)); [intros H; by apply since_nil in H|].
  clear. intros s ev e s' _ HI Hm Hw.
  assert (Hq : (forall x, x ∈ e -> match x with EvInitReq => False | _ => True end) -> x_ireq s = true).
  { intros He. apply since_app in Hw as [(x & Hx & <-)%since_elem|[Hw _]]; [by apply He in Hx|auto]. }
  destruct Hm; try (destruct b); try (apply Hq; by no_event); try done.
  all: cbn; exfalso; revert Hw; unfold init_wanted; rewrite ?snoc2, ?since_snoc; naive_solver.
Qed.

(** ** Resources *)
Lemma ev_init_vote s ev : reach s ev -> forall ev1 b ev2, ev = ev1 ++ EvInitVote PRs b :: ev2 -> (b = true <-> forall i, ~ owned i ev1).
Proof.
  intros HR ev1 b ev2 E.
  refine (at_event D (fun x ev1 => forall b, x = EvInitVote PRs b -> (b = true <-> forall i, ~ owned i ev1)) _ s ev HR ev1 _ ev2 E b eq_refl).
  clear. intros s ev e s' HR Hm e1 x e2 Hp b ->. destruct Hm; try (other Hp).
  apply one_pos in Hp as (-> & -> & [= <- <-]). rewrite app_nil_r, <- (reach_has_none _ _ _ HR). rewrite <- H0. cbn. by rewrite negb_true_iff.
Qed.
Lemma ev_shut_vote s ev : reach s ev -> forall ev1 b ev2, ev = ev1 ++ EvShutVote PRs b :: ev2 -> (b = true <-> forall i, ~ owned i ev1).
Proof.
  intros HR ev1 b ev2 E.
  refine (at_event D (fun x ev1 => forall b, x = EvShutVote PRs b -> (b = true <-> forall i, ~ owned i ev1)) _ s ev HR ev1 _ ev2 E b eq_refl).
  clear. intros s ev e s' HR Hm e1 x e2 Hp b ->. destruct Hm; try (other Hp).
  apply one_pos in Hp as (-> & -> & [= <- <-]). rewrite app_nil_r, <- (reach_has_none _ _ _ HR). rewrite <- H0. cbn. by rewrite negb_true_iff.
Qed.
Lemma map_none {A} (P : A -> Prop) `{forall x, Decision (P x)} (m : gmap N A) : bool_decide (map_Exists (fun _ v => P v) m) = false -> forall k v, m !! k = Some v -> ~ P v.
Proof. intros Hb%bool_decide_eq_false k v Hk Hv. apply Hb. by exists k, v. Qed.
(** ** Completion of the initialization *)
Lemma ev_init_ok s ev : reach s ev -> forall ev1 ev2, ev = ev1 ++ EvInitOk :: ev2 ->
  state_of ev1 = AInitializing /\ init_wanted ev1 /\
  (D -> (forall i, ~ owned i ev1) /\ (forall a, ~ link_open a ev1) /\ (forall n, ~ reg_open n ev1) /\ (forall n, ~ disc_open n ev1)).
Proof.
  intros HR ev1 ev2 E.
  refine (at_event D (fun x ev1 => x = EvInitOk -> state_of ev1 = AInitializing /\ init_wanted ev1 /\
    (D -> (forall i, ~ owned i ev1) /\ (forall a, ~ link_open a ev1) /\ (forall n, ~ reg_open n ev1) /\ (forall n, ~ disc_open n ev1))) _ s ev HR ev1 _ ev2 E eq_refl).
  clear. intros s ev e s' HR Hm e1 x e2 Hp ->. destruct Hm; try (other Hp).
  apply two_pos in Hp as [(-> & _ & _)|(_ & _ & ?)]; [|done]. rewrite app_nil_r. split; [by rewrite <- (reach_state _ _ _ HR)|]. split; [by apply (reach_ireq _ _ _ HR)|].
  intros HD. destruct (H1 HD) as (R1 & R2 & R3). apply ready_PLc in R1. apply ready_PRg in R2 as [R2 R2']. apply ready_PRs in R3. split_and!.
  - by apply (reach_has_none _ _ _ HR).
  - intros a Ha. apply (reach_link _ _ _ HR) in Ha as (x & Hx & Hl). by apply (map_none _ _ R1 _ _ Hx).
  - intros n Hn. apply (reach_open _ _ _ HR H) in Hn. by apply (map_none _ _ R2' _ _ Hn).
  - intros n Hn. apply (reach_disc _ _ _ HR H) in Hn as [x Hx]. by rewrite R2 in Hx.
Qed.
(** A refused registration is followed by a refusal of the init request; so is a
    failed discovery while the actor initializes. *)
Lemma ev_reg_err s ev : reach s ev -> forall ev1 n ev2, ev = ev1 ++ EvRegResp n false :: ev2 -> init_wanted ev1 /\ exists l, ev2 = EvInitErr PRg :: l.
Proof.
  intros HR ev1 n ev2 E.
  refine (at_event2 D (fun x ev1 ev2 => forall n, x = EvRegResp n false -> init_wanted ev1 /\ exists l, ev2 = EvInitErr PRg :: l) _ _ s ev HR ev1 _ ev2 E n eq_refl).
  - clear. intros x ev1 ev2 l H n Hx. destruct (H n Hx) as (? & l' & ->). split; [done|]. by exists (l' ++ l).
  - clear. intros s ev e s' HR Hm e1 x e2 Hp n ->. destruct Hm; try (other Hp).
    apply two_pos in Hp as [(-> & -> & _)|(_ & _ & ?)]; [|done]. rewrite app_nil_r. split; [by apply (reach_ireq _ _ _ HR)|by exists []].
Qed.
Lemma ev_disc_err s ev : reach s ev -> forall ev1 n ev2, ev = ev1 ++ EvDiscResp n None :: ev2 -> state_of ev1 = AInitializing -> init_wanted ev1 /\ exists l, ev2 = EvInitErr PRg :: l.
Proof.
  intros HR ev1 n ev2 E.
  refine (at_event2 D (fun x ev1 ev2 => forall n, x = EvDiscResp n None -> state_of ev1 = AInitializing -> init_wanted ev1 /\ exists l, ev2 = EvInitErr PRg :: l) _ _ s ev HR ev1 _ ev2 E n eq_refl).
  - clear. intros x ev1 ev2 l H n Hx Hs. destruct (H n Hx Hs) as (? & l' & ->). split; [done|]. by exists (l' ++ l).
  - clear. intros s ev e s' HR Hm e1 x e2 Hp n ->. destruct Hm; try (other Hp).
    intros Hst. destruct (bool_decide (x_st s = AInitializing)) eqn:Eb.
    + apply two_pos in Hp as [(-> & -> & _)|(_ & _ & ?)]; [|done]. rewrite app_nil_r. apply bool_decide_eq_true in Eb. split; [apply (reach_ireq _ _ _ HR); auto|by exists []].
    + apply one_pos in Hp as (-> & -> & _). rewrite app_nil_r in Hst. rewrite <- (reach_state _ _ _ HR) in Hst. by apply bool_decide_eq_false in Eb.
Qed.

(** ** Shutdown *)
Lemma ev_finish s ev : reach s ev -> forall ev1 o ev2, ev = ev1 ++ EvState o AShutDown :: ev2 ->
  o = AShuttingDown /\ (forall i, ~ owned i ev1) /\ (forall c, ~ linked c ev1) /\ (D -> forall n, ~ registered n ev1).
Proof.
  intros HR ev1 o ev2 E.
  refine (at_event D (fun x ev1 => forall o, x = EvState o AShutDown -> o = AShuttingDown /\ (forall i, ~ owned i ev1) /\ (forall c, ~ linked c ev1) /\ (D -> forall n, ~ registered n ev1)) _ s ev HR ev1 _ ev2 E o eq_refl).
  clear. intros s ev e s' HR Hm e1 x e2 Hp o ->. destruct Hm; try (other Hp).
  destruct (reach_down _ _ _ HR) as (I1 & I2 & I3 & I4).
  assert (HF : forall e1, (e1 = [] \/ e1 = [EvShutOk]) -> (forall i, ~ owned i (ev ++ e1)) /\ (forall c, ~ linked c (ev ++ e1)) /\ (D -> forall n, ~ registered n (ev ++ e1))).
  { intros e He. split_and!.
    - intros i. assert (owned i (ev ++ e) <-> owned i ev) as ->.
      { unfold owned. rewrite !count_app. destruct He as [-> | ->]; [rewrite !N.add_0_r; done|rewrite !count_ne by done; lia]. }
      apply (reach_has_none _ _ _ HR). apply I2, H0. cbn. set_solver.
    - intros c Hc. assert (linked c ev) as Hl by (destruct He as [-> | ->]; [by rewrite app_nil_r in Hc|by apply linked_snoc in Hc]).
      apply (reach_cl _ _ _ HR) in Hl as (x & Hx & _). rewrite I3 in Hx; [done|]. apply H0. cbn. set_solver.
    - intros HD n Hn. assert (registered n ev) as Hl by (destruct He as [-> | ->]; [by rewrite app_nil_r in Hn|apply since_snoc in Hn as [?|[? _]]; done]).
      apply (reach_reg _ _ _ HR) in Hl. rewrite I4 in Hl; [done|done|]. apply H0. cbn. set_solver. }
  destruct (x_sreq s).
  - apply two_pos in Hp as [(_ & _ & ?)|(-> & _ & [= ->])]; [done|]. split; [done|]. apply HF. by right.
  - apply one_pos in Hp as (-> & _ & [= ->]). split; [done|]. apply HF. by left.
Qed.
(** The plugins which wait for the clients have asked them. *)
Lemma ev_cl_vote s ev : reach s ev -> forall ev1 p b ev2, ev = ev1 ++ EvShutVote p b :: ev2 -> p = PLs \/ p = PLc /\ b = false ->
  forall c, linked c ev1 -> asked c ev1.
Proof.
  intros HR ev1 p b ev2 E.
  refine (at_event D (fun x ev1 => forall p b, x = EvShutVote p b -> p = PLs \/ p = PLc /\ b = false -> forall c, linked c ev1 -> asked c ev1) _ s ev HR ev1 _ ev2 E p b eq_refl).
  clear. intros s ev e s' HR Hm e1 x e2 Hp p b ->. destruct Hm; try (other Hp).
  apply one_pos in Hp as (-> & -> & [= <- <-]). rewrite app_nil_r. intros Hpb c Hl. destruct (reach_cl _ _ _ HR c) as (L1 & _ & L3 & _).
  apply L1 in Hl as ([r| |id] & Hx & Hv); [done| |by eapply L3]. exfalso. by eapply H1.
Qed.
Lemma ev_ls_vote s ev : reach s ev -> forall ev1 b ev2, ev = ev1 ++ EvShutVote PLs b :: ev2 -> b = true -> forall c, ~ linked c ev1.
Proof.
  intros HR ev1 b ev2 E.
  refine (at_event D (fun x ev1 => forall b, x = EvShutVote PLs b -> b = true -> forall c, ~ linked c ev1) _ s ev HR ev1 _ ev2 E b eq_refl).
  clear. intros s ev e s' HR Hm e1 x e2 Hp b ->. destruct Hm; try (other Hp).
  apply one_pos in Hp as (-> & -> & [= <- <-]). rewrite app_nil_r. intros -> c Hl. apply bool_decide_eq_true in H0.
  apply (reach_cl _ _ _ HR) in Hl as (x & Hx & _). by rewrite H0 in Hx.
Qed.
Lemma ev_ask s ev : reach s ev -> forall ev1 c id ev2, ev = ev1 ++ EvUnlinkReq c id :: ev2 -> linked c ev1 /\ ~ asked c ev1.
Proof.
  intros HR ev1 c id ev2 E.
  refine (at_event D (fun x ev1 => forall c id, x = EvUnlinkReq c id -> linked c ev1 /\ ~ asked c ev1) _ s ev HR ev1 _ ev2 E c id eq_refl).
  clear. intros s ev e s' HR Hm e1 x e2 Hp c id ->. destruct Hm; try (other Hp).
  apply one_pos in Hp as (-> & -> & [= -> ->]). rewrite app_nil_r. destruct (reach_cl _ _ _ HR c0) as (L1 & L2 & _).
  split; [apply L1; eauto|auto].
Qed.
(** ** Names *)
Lemma ev_dereg s ev : reach s ev -> forall ev1 n ev2, ev = ev1 ++ EvDereg n :: ev2 -> state_of ev1 = AShuttingDown /\ registered n ev1.
Proof.
  intros HR ev1 n ev2 E.
  refine (at_event D (fun x ev1 => forall n, x = EvDereg n -> state_of ev1 = AShuttingDown /\ registered n ev1) _ s ev HR ev1 _ ev2 E n eq_refl).
  clear. intros s ev e s' HR Hm e1 x e2 Hp n ->. destruct Hm; try (other Hp).
  assert (He : forall x, x ∈ e1 -> exists m, x = EvDereg m /\ m <> n).
  { intros x Hx. assert (Hxe : x ∈ e) by (rewrite Hp; apply elem_of_app; by left). apply H1 in Hxe as (m & -> & _). exists m. split; [done|]. intros ->.
    rewrite Hp in H0. apply NoDup_app in H0 as (_ & Hd & _). apply (Hd _ Hx). by left. }
  split.
  - rewrite state_of_app, <- (reach_state _ _ _ HR), H. clear Hp. induction e1 as [|x e1 IH]; cbn; [done|].
    destruct (He x ltac:(by left)) as (m & -> & _). apply IH. intros y Hy. apply He. by right.
  - apply since_keep; [|apply Forall_forall; intros x Hx; apply He in Hx as (m & -> & Hne); intros [[= ->]|?]; done].
    apply (reach_reg _ _ _ HR). assert (Hn : EvDereg n ∈ e) by by eapply pos_elem. apply H1 in Hn as (m & [= <-] & ?). done.
Qed.
Lemma ev_rg_vote s ev : reach s ev -> forall ev1 b ev2, ev = ev1 ++ EvShutVote PRg b :: ev2 -> forall n, ~ registered n ev1.
Proof.
  intros HR ev1 b ev2 E.
  refine (at_event D (fun x ev1 => forall b, x = EvShutVote PRg b -> forall n, ~ registered n ev1) _ s ev HR ev1 _ ev2 E b eq_refl).
  clear. intros s ev e s' HR Hm e1 x e2 Hp b ->. destruct Hm; try (other Hp).
  apply one_pos in Hp as (-> & -> & [= <- <-]). rewrite app_nil_r. intros n Hn. apply (reach_reg _ _ _ HR) in Hn. by rewrite H2 in Hn.
Qed.
End facts.
