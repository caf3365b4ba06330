(** Invariants of the actor: what the trace says is what the plugins know. *)
From stdpp Require Import base list gmap.
From Verif Require Import Base Prog ActorModel ActorSpec ActorMoves ActorReach.
Open Scope N_scope.

Section since.
Context {E : Type} (up down : E -> Prop).
Notation since := (since up down).
Lemma since_nil : ~ since [].
Proof. intros (t1 & x & t2 & H & _). by destruct t1. Qed.
Lemma since_keep tr e : since tr -> Forall (fun y => ~ down y) e -> since (tr ++ e).
Proof. intros (t1 & x & t2 & -> & Hx & Ht) He. exists t1, x, (t2 ++ e). split; [by rewrite <- (assoc_L (++))|]. split; [done|]. by apply Forall_app. Qed.
Lemma since_up tr x : up x -> since (tr ++ [x]).
Proof. intros Hx. exists tr, x, []. by split_and!. Qed.
Lemma since_app tr e : since (tr ++ e) -> since e \/ (since tr /\ Forall (fun y => ~ down y) e).
Proof.
  intros (t1 & x & t2 & H & Hx & Ht). apply app_eq_app in H as (l & [[-> H]|[-> H]]).
  - destruct l as [|y l]; cbn in H.
    + left. exists [], x, t2. by rewrite <- H.
    + injection H as -> ->. right. apply Forall_app in Ht as [H1 H2]. split; [|done]. exists t1, y, l. done.
  - left. by exists l, x, t2.
Qed.
Lemma since_elem e : since e -> exists x, x ∈ e /\ up x.
Proof. intros (t1 & x & t2 & -> & Hx & _). exists x. split; [|done]. apply elem_of_app. right. by left. Qed.
(** Not closed by the last event of [e]. *)
Lemma since_last e x : since (e ++ [x]) -> ~ up x -> ~ down x.
Proof.
  intros (t1 & y & t2 & H & Hy & Ht) Hn. destruct t2 as [|z t2 _] using rev_ind.
  - apply app_inj_tail in H as [_ ->]. done.
  - rewrite app_comm_cons, (assoc_L (++)) in H. apply app_inj_tail in H as [_ ->]. apply Forall_app in Ht as [_ Ht]. by inversion Ht.
Qed.
Lemma since_snoc tr x : since (tr ++ [x]) <-> up x \/ (since tr /\ ~ down x).
Proof.
  split.
  - intros [H|[H Hd]]%since_app.
    + apply since_elem in H as (y & ->%elem_of_list_singleton & ?). by left.
    + right. inversion Hd; subst. done.
  - intros [H|[H Hd]]; [by apply since_up|]. apply since_keep; [done|]. by constructor.
Qed.
End since.

(** Take [x ∈ e] apart. *)
Ltac elems H :=
  repeat match type of H with
  | _ ∈ [] => by apply elem_of_nil in H
  | _ ∈ _ ++ _ => apply elem_of_app in H as [H|H]
  | _ ∈ (if ?b then _ else _) => destruct b
  | _ ∈ _ :: _ => apply elem_of_cons in H as [H|H]
  end.

Section count.
Lemma count_app x l1 l2 : count x (l1 ++ l2) = count x l1 + count x l2.
Proof. unfold count. rewrite filter_app, app_length. lia. Qed.
Lemma count_notin x l : x ∉ l -> count x l = 0.
Proof.
  intros H. unfold count. assert (filter (.= x) l = []) as ->; [|done]. destruct (filter (.= x) l) as [|y r] eqn:E; [done|].
  destruct H. assert (Hy : y ∈ filter (.= x) l) by (rewrite E; by left). apply elem_of_list_filter in Hy as [-> ?]. done.
Qed.
Lemma count_one x : count x [x] = 1.
Proof. unfold count. rewrite filter_cons_True by done. done. Qed.
End count.

Section inv.
Context (D : Prop).
Notation reach := (reach D). Notation move := (move D).

(** Facts which hold when an event is emitted. *)
Lemma at_event2 (Q : aev -> list aev -> list aev -> Prop) :
  (forall x ev1 ev2 l, Q x ev1 ev2 -> Q x ev1 (ev2 ++ l)) ->
  (forall s ev e s', reach s ev -> move s e s' -> forall e1 x e2, e = e1 ++ x :: e2 -> Q x (ev ++ e1) e2) ->
  forall s ev, reach s ev -> forall ev1 x ev2, ev = ev1 ++ x :: ev2 -> Q x ev1 ev2.
Proof.
  intros Hm H s ev Hr. induction Hr as [|s ev e s' Hr IH Hmv]; intros ev1 x ev2 E; [by destruct ev1|].
  apply app_eq_app in E as (l & [[-> E]|[-> E]]).
  - destruct l as [|y l]; cbn in E.
    + rewrite <- (app_nil_r ev1). eapply H; [|exact Hmv|by rewrite <- E]. by rewrite app_nil_r in Hr.
    + injection E as <- ->. apply Hm. by eapply IH.
  - by eapply H.
Qed.
Lemma at_event (Q : aev -> list aev -> Prop) :
  (forall s ev e s', reach s ev -> move s e s' -> forall e1 x e2, e = e1 ++ x :: e2 -> Q x (ev ++ e1)) ->
  forall s ev, reach s ev -> forall ev1 x ev2, ev = ev1 ++ x :: ev2 -> Q x ev1.
Proof. intros H. apply (at_event2 (fun x ev1 _ => Q x ev1)); [done|]. exact H. Qed.

(** ** Resources *)
Definition inv_res (s : astore) (ev : list aev) : Prop := forall i, held s i + count (EvRelease i) ev = count (EvAcquire i) ev.
Lemma held_ins s i v j : held (w_res s (<[i := v]> (x_res s))) j = if decide (j = i) then v else held s j.
Proof. unfold held. cbn. destruct (decide (j = i)) as [->|Hn]; [by rewrite lookup_insert|by rewrite lookup_insert_ne]. Qed.
Lemma count_ne x y : x <> y -> count x [y] = 0.
Proof. intros H. apply count_notin. by intros ?%elem_of_list_singleton. Qed.
(** The events of a move, one by one. *)
Ltac no_event :=
  let x := fresh "x" in let Hx := fresh "Hx" in
  intros x Hx;
  try match goal with HE : forall y, y ∈ ?e <-> exists n, _ |- _ => apply HE in Hx as (? & Hx & _) end;
  elems Hx; subst x; try done; try (match goal with d : bool |- _ => by destruct d end).
Ltac vote := try match goal with b : bool, H : _ = ?b |- context [if ?b then _ else _] => destruct b end.

Lemma reach_res s ev : reach s ev -> inv_res s ev.
Proof.
  apply (reach_inv D inv_res).
  - intros i. done.
  - clear. intros s ev e s' _ HI Hm.
    assert (Hq : forall e s', x_res s' = x_res s -> (forall x, x ∈ e -> match x with EvAcquire _ | EvRelease _ => False | _ => True end) -> inv_res s' (ev ++ e)).
    { intros e1 s1 Hr He i. rewrite !count_app, !(count_notin _ e1), !N.add_0_r by (intros Hx; by apply He in Hx). unfold held. rewrite Hr. apply HI. }
    destruct Hm; vote; try (apply Hq; [reflexivity|no_event]).
    + intros j. specialize (HI j).
      match goal with |- held ?s1 _ + _ = _ => assert (held s1 j = if decide (j = i) then held s i + 1 else held s j) as -> by apply (held_ins s) end.
      rewrite !count_app, (count_ne (EvRelease j)) by done. destruct (decide (j = i)) as [->|Hn].
      * rewrite count_one. lia.
      * rewrite count_ne by congruence. lia.
    + intros j. specialize (HI j). rewrite held_ins, !count_app, (count_ne (EvAcquire j)) by done. destruct (decide (j = i)) as [->|Hn].
      * rewrite count_one. lia.
      * rewrite count_ne by congruence. lia.
Qed.
Lemma reach_owned s ev : reach s ev -> forall i, owned i ev <-> 0 < held s i.
Proof. intros H i. pose proof (reach_res _ _ H i). unfold owned. lia. Qed.
Lemma reach_has_any s ev : reach s ev -> has_any s = true <-> exists i, owned i ev.
Proof. intros H. rewrite has_any_spec. split; intros [i Hi]; exists i; by apply (reach_owned _ _ H). Qed.
Lemma reach_has_none s ev : reach s ev -> has_any s = false <-> forall i, ~ owned i ev.
Proof.
  intros H. rewrite <- not_true_iff_false, (reach_has_any _ _ H). split; [intros Hn i Hi; apply Hn; eauto|by intros Hn [i Hi]; apply (Hn i)].
Qed.

(** ** Links to servers *)
Definition inv_link (s : astore) (ev : list aev) : Prop :=
  forall a, link_open a ev -> exists x, x_sv s !! a = Some x /\ is_linking x = true.
Ltac since_cases H :=
  apply since_app in H as [H|[H ?Hnd]];
  [let x := fresh "x" in let Hx := fresh "Hx" in let Hup := fresh "Hup" in apply since_elem in H as (x & Hx & Hup)|].
Lemma reach_link s ev : reach s ev -> inv_link s ev.
Proof.
  apply (reach_inv D inv_link).
  - intros a Ha. by apply since_nil in Ha.
  - clear. intros s ev e s' _ HI Hm.
    assert (Hq : forall e s', x_sv s' = x_sv s -> (forall x, x ∈ e -> match x with EvLink _ _ _ => False | _ => True end) -> inv_link s' (ev ++ e)).
    { intros e1 s1 Hr He a Ha. since_cases Ha; [|rewrite Hr; auto]. destruct Hup as (o & id & ->). by apply He in Hx. }
    destruct Hm; vote; try (apply Hq; [reflexivity|no_event]).
    + intros b Hb. since_cases Hb.
      * elems Hx. subst x. destruct Hup as (o' & id & [= -> -> ->]). cbn. rewrite lookup_insert. eauto.
      * cbn. destruct (HI _ Hb) as (x & Hx & ?). rewrite lookup_insert_ne by congruence. eauto.
    + intros b Hb. since_cases Hb; [elems Hx; subst x; by destruct Hup as (? & ? & ?)|]. inversion Hnd as [|? ? Hne _]; subst.
      cbn. rewrite lookup_delete_ne; [by apply HI|]. intros ->. apply Hne. left. by eexists.
    + intros b Hb. since_cases Hb; [elems Hx; subst x; by destruct Hup as (? & ? & ?)|]. inversion Hnd as [|? ? Hne _]; subst.
      cbn. rewrite lookup_insert_ne; [by apply HI|]. intros ->. apply Hne. left. by eexists.
    + intros b Hb. since_cases Hb; [elems Hx; subst x; by destruct Hup as (? & ? & ?)|]. inversion Hnd as [|? ? Hne _]; subst.
      cbn. rewrite lookup_delete_ne; [by apply HI|]. intros ->. apply Hne. by right; right.
    + intros b Hb. since_cases Hb; [elems Hx; subst x; by destruct Hup as (? & ? & ?)|]. inversion Hnd as [|? ? Hne _]; subst.
      cbn. rewrite lookup_delete_ne; [by apply HI|]. intros ->. apply Hne. by right; left.
Qed.

(** ** Names *)
Ltac nodown Hnd := inversion Hnd as [|? ? ?Hne ?Hnd']; subst.
Definition inv_reg (s : astore) (ev : list aev) : Prop := forall n, registered n ev <-> x_rm s !! n = Some ROperational.
Lemma reach_reg s ev : reach s ev -> inv_reg s ev.
Proof.
  apply (reach_inv D inv_reg).
  - intros n. split; [by intros ?%since_nil|by cbn; rewrite lookup_empty].
  - clear. intros s ev e s' _ HI Hm.
    assert (Hq : forall e s', x_rm s' = x_rm s -> (forall x, x ∈ e -> match x with EvRegResp _ _ | EvDereg _ => False | _ => True end) -> inv_reg s' (ev ++ e)).
    { intros e1 s1 Hr He n. rewrite Hr, <- (HI n). split.
      - intros Hn. since_cases Hn; [|done]. subst x. by apply He in Hx.
      - intros Hn. apply since_keep; [done|]. apply Forall_forall. intros x Hx [-> | ->]; by apply He in Hx. }
    destruct Hm; vote; try (apply Hq; [reflexivity|no_event]); intros m; cbn.
    + (* register *) split.
      * intros Hm. since_cases Hm; [elems Hx; by subst x|]. apply HI in Hm. rewrite lookup_insert_ne by congruence. done.
      * intros [[_ ?]|[_ ?%HI]]%lookup_insert_Some; [done|]. apply since_keep; [done|]. by repeat constructor; intros [?|?].
    + (* accepted *) split.
      * intros Hm. since_cases Hm; [elems Hx; rewrite <- Hup in Hx; injection Hx as ->; by rewrite lookup_insert|].
        destruct (decide (m = n)) as [->|Hn]; [by rewrite lookup_insert|]. rewrite lookup_insert_ne by done. by apply HI.
      * destruct (decide (m = n)) as [->|Hn]; [intros _; by apply since_up|]. rewrite lookup_insert_ne by done. intros ?%HI.
        apply since_keep; [done|]. by repeat constructor; intros [?|?].
    + (* refused *) split.
      * intros Hm. since_cases Hm; [elems Hx; by subst x|]. nodown Hnd. rewrite lookup_delete_ne; [by apply HI|]. intros ->. apply Hne. by right.
      * intros [Hn ?%HI]%lookup_delete_Some. apply since_keep; [done|]. repeat constructor; intros [?|?]; try done. congruence.
    + (* shutdown *) split; [|by rewrite lookup_empty]. intros Hm. since_cases Hm.
      * subst x. apply H1 in Hx as (n & ? & _). done.
      * apply HI in Hm. rewrite Forall_forall in Hnd. destruct (Hnd (EvDereg m)); [apply H1; by exists m|by left].
Qed.

Definition inv_open (s : astore) (ev : list aev) : Prop :=
  x_st s = AInitializing -> forall n, reg_open n ev -> x_rm s !! n = Some RRegistering.
Lemma reach_open s ev : reach s ev -> inv_open s ev.
Proof.
  apply (reach_inv D inv_open).
  - intros _ n Hn. by apply since_nil in Hn.
  - clear. intros s ev e s' _ HI Hm.
    assert (Hq : forall e s', x_rm s' = x_rm s -> (x_st s' = AInitializing -> x_st s = AInitializing) -> (forall x, x ∈ e -> match x with EvRegister _ => False | _ => True end) -> inv_open s' (ev ++ e)).
    { intros e1 s1 Hr Hs He Hst n Hn. rewrite Hr. since_cases Hn; [subst x; by apply He in Hx|]. apply HI; auto. }
    destruct Hm; vote; try (apply Hq; [reflexivity|done|no_event]); intros Hst m Hm; cbn.
    + since_cases Hm; [elems Hx; rewrite <- Hup in Hx; injection Hx as ->; by rewrite lookup_insert|].
      destruct (decide (m = n)) as [->|Hn]; [by rewrite lookup_insert|]. rewrite lookup_insert_ne by done. by apply HI.
    + since_cases Hm; [elems Hx; by subst x|]. nodown Hnd. rewrite lookup_insert_ne; [by apply HI|]. intros ->. apply Hne. by eexists.
    + since_cases Hm; [elems Hx; by subst x|]. nodown Hnd. rewrite lookup_delete_ne; [by apply HI|]. intros ->. apply Hne. by eexists.
    + cbn in Hst. congruence.
Qed.

Lemma del_all_lookup l m n : del_all l m !! n = if decide (n ∈ l) then None else m !! n.
Proof.
  unfold del_all. revert m. induction l as [|x l IH]; intros m; cbn; [done|]. rewrite IH.
  destruct (decide (n ∈ l)) as [Hn|Hn].
  - rewrite decide_True; [done|by right].
  - destruct (decide (n = x)) as [->|Hx].
    + by rewrite lookup_delete, decide_True by left.
    + rewrite lookup_delete_ne by done. rewrite decide_False; [done|]. by intros [?|?]%elem_of_cons.
Qed.
Definition inv_disc (s : astore) (ev : list aev) : Prop :=
  x_st s = AInitializing ->
  (forall n, disc_open n ev -> is_Some (x_dm s !! n)) /\
  (forall a l n, x_al s !! a = Some l -> n ∈ l -> ~ disc_open n ev) /\
  (forall n t, x_dm s !! n = Some t -> is_Some (t_addr t) -> ~ disc_open n ev).
Lemma reach_disc s ev : reach s ev -> inv_disc s ev.
Proof.
  apply (reach_inv D inv_disc).
  - intros _. split_and!; intros *; [by intros ?%since_nil|intros _ _; apply since_nil|intros _ _; apply since_nil].
  - clear. intros s ev e s' HR HI Hm.
    assert (Hq : forall e s', x_dm s' = x_dm s -> x_al s' = x_al s -> (x_st s' = AInitializing -> x_st s = AInitializing) -> (forall x, x ∈ e -> match x with EvDiscover _ => False | _ => True end) -> inv_disc s' (ev ++ e)).
    { intros e1 s1 Hr Ha Hs He Hst. destruct (HI (Hs Hst)) as (I1 & I2 & I3). rewrite Hr, Ha.
      assert (HN : forall n, disc_open n (ev ++ e1) -> disc_open n ev) by (intros n Hn; since_cases Hn; [subst x; by apply He in Hx|done]).
      split_and!; [by intros n ?%HN; auto|intros * ? ? ?%HN; by eapply I2|intros * ? ? ?%HN; by eapply I3]. }
    assert (HN : forall e n, (forall x, x ∈ e -> match x with EvDiscover _ => False | _ => True end) -> disc_open n (ev ++ e) -> disc_open n ev /\ Forall (fun y => ~ exists r, y = EvDiscResp n r) e).
    { intros e1 n He Hn. since_cases Hn; [subst x; by apply He in Hx|done]. }
    destruct Hm; vote; try (apply Hq; [reflexivity|reflexivity|done|no_event]); intros Hst; destruct (HI Hst) as (I1 & I2 & I3); cbn.
    + (* discover *) destruct (reach_lked _ _ _ HR) as (_ & _ & L3 & L4). split_and!.
      * intros m Hm. since_cases Hm; [elems Hx; rewrite <- Hup in Hx; injection Hx as ->; by rewrite lookup_insert|].
        destruct (decide (m = n)) as [->|Hn]; [by rewrite lookup_insert|]. rewrite lookup_insert_ne by done. by apply I1.
      * intros a l m Hl. assert (x_lked s = true) by eauto. congruence.
      * intros m t' [[<- <-]|[Hn Ht]]%lookup_insert_Some Ha; [rewrite H2 in Ha; by destruct Ha|]. assert (x_lked s = true) by eauto. congruence.
    + (* discovery request *) assert (He : forall x, x ∈ [if d then EvPromise n (x_next s) else EvDisc n (x_next s)] -> match x with EvDiscover _ => False | _ => True end) by no_event.
      split_and!.
      * intros m Hm. apply (HN _ _ He) in Hm as [Hm _]. destruct (decide (m = n)) as [->|Hn]; [by rewrite lookup_insert|]. rewrite lookup_insert_ne by done. auto.
      * intros a l m Hl Hm Ho. apply (HN _ _ He) in Ho as [Ho _]. by eapply I2.
      * intros m t' Ht Ha Ho. apply (HN _ _ He) in Ho as [Ho _]. apply lookup_insert_Some in Ht as [[<- <-]|[Hn Ht]]; by eapply I3.
    + (* answer *) assert (He : forall x, x ∈ [EvDiscResp n (Some a)] -> match x with EvDiscover _ => False | _ => True end) by no_event.
      split_and!.
      * intros m Hm. apply (HN _ _ He) in Hm as [Hm _]. destruct (decide (m = n)) as [->|Hn]; [by rewrite lookup_insert|]. rewrite lookup_insert_ne by done. auto.
      * intros b l m Hl Hm Ho. apply (HN _ _ He) in Ho as [Ho _]. by eapply I2.
      * intros m t' Ht Ha Ho. apply (HN _ _ He) in Ho as [Ho Hnd]. nodown Hnd. apply lookup_insert_Some in Ht as [[<- <-]|[Hn Ht]]; [|by eapply I3].
        apply Hne. by eexists.
    + (* failure *) match goal with |- context [ev ++ ?e0] => assert (He : forall x, x ∈ e0 -> match x with EvDiscover _ => False | _ => True end) by no_event end.
      split_and!.
      * intros m Hm. apply (HN _ _ He) in Hm as [Hm Hnd]. inversion Hnd as [|? ? Hne _]; subst. rewrite del_all_lookup.
        rewrite decide_False; [auto|]. intros Hml. destruct H as [->|Hl]; [|by eapply I2].
        apply elem_of_list_singleton in Hml as ->. apply Hne. by eexists.
      * intros b l' m Hl Hm Ho. apply (HN _ _ He) in Ho as [Ho _]. by eapply I2.
      * intros m t' Ht Ha Ho. apply (HN _ _ He) in Ho as [Ho Hnd]. rewrite del_all_lookup in Ht. case_decide; [done|]. by eapply I3.
    + (* alias *) rewrite app_nil_r. split_and!; [done| |done].
      intros b l' m [[<- <-]|[Hn Hl]]%lookup_insert_Some Hm; [|by eapply I2].
      apply elem_of_app in Hm as [Hm| ->%elem_of_list_singleton]; [|eapply I3; [exact H0|by rewrite H1]].
      destruct H as [->|?]; [by apply elem_of_nil in Hm|by eapply I2].
    + (* the link is done *) rewrite app_nil_r. split_and!; [|done|].
      * intros m Hm. rewrite del_all_lookup, decide_False; [auto|]. intros Hml. destruct (H Hst) as [a Ha]. by eapply I2.
      * intros m t' Ht. rewrite del_all_lookup in Ht. case_decide; [done|]. eauto.
    + (* cancel *) assert (He : forall x, x ∈ [EvCancel n] -> match x with EvDiscover _ => False | _ => True end) by no_event.
      split_and!.
      * intros m Hm. apply (HN _ _ He) in Hm as [Hm _]. destruct (decide (m = n)) as [->|Hn]; [by rewrite lookup_insert|]. rewrite lookup_insert_ne by done. auto.
      * intros a l m Hl Hm Ho. apply (HN _ _ He) in Ho as [Ho _]. by eapply I2.
      * intros m t' Ht Ha Ho. apply (HN _ _ He) in Ho as [Ho _]. apply lookup_insert_Some in Ht as [[<- <-]|[Hn Ht]]; by eapply I3.
    + rewrite app_nil_r. split_and!; [done| |done]. intros a l m Hl. by rewrite lookup_empty in Hl.
Qed.

(** ** The init request *)
Definition inv_ireq (s : astore) (ev : list aev) : Prop := x_ireq s = true -> init_wanted ev.
Lemma reach_ireq s ev : reach s ev -> inv_ireq s ev.
Proof.
  apply (reach_inv D inv_ireq); [done|].
  clear. intros s ev e s' _ HI Hm.
  assert (Hq : forall e s', x_ireq s' = x_ireq s -> (forall x, x ∈ e -> match x with EvInitOk | EvInitErr PLc => False | _ => True end) -> inv_ireq s' (ev ++ e)).
  { intros e1 s1 Hr He Hi. rewrite Hr in Hi. apply since_keep; [by apply HI|]. apply Forall_forall. intros x Hx [-> | ->]; by apply He in Hx. }
  destruct Hm; vote; try (apply Hq; [reflexivity|no_event]); try done.
  intros _. by apply since_up.
Qed.
(** Before the first change of state the actor is initializing. *)
Definition inv_st (s : astore) (ev : list aev) : Prop := (forall o x, EvState o x ∉ ev) -> x_st s = AInitializing.
Lemma reach_st s ev : reach s ev -> inv_st s ev.
Proof.
  apply (reach_inv D inv_st); [done|].
  clear. intros s ev e s' _ HI Hm.
  assert (Hq : forall e s', x_st s' = x_st s -> inv_st s' (ev ++ e)).
  { intros e1 s1 Hr He. rewrite Hr. apply HI. intros o x Hx. eapply He, elem_of_app. left. exact Hx. }
  destruct Hm; vote; try (apply Hq; reflexivity).
  all: intros He; exfalso; eapply He; apply elem_of_app; right.
  - by left.
  - right. by left.
  - by left.
  - apply elem_of_app. right. by left.
Qed.

(** ** Clients *)
Definition live (x : cstate) : bool := match x with CPending _ => false | _ => true end.
Definition inv_cl (s : astore) (ev : list aev) : Prop := forall c,
  (linked c ev <-> exists x, x_cl s !! c = Some x /\ live x = true) /\
  (x_cl s !! c = Some COperational -> ~ asked c ev) /\
  (forall id, x_cl s !! c = Some (CUnlinking id) -> asked c ev) /\
  (forall r, waiting c r ev -> x_cl s !! c = Some (CPending r)).
Definition cl_ev (x : aev) : bool :=
  match x with EvLinkAns _ _ LOk | EvUnlinkOk _ | EvGotNotify _ | EvUnlinkReq _ _ | EvLinkReq _ _ _ => true | _ => false end.
Lemma since_same {E} (up down : E -> Prop) (I : E -> bool) ev e : (forall x, up x \/ down x -> I x = true) -> (forall x, x ∈ e -> I x = false) ->
  since up down (ev ++ e) <-> since up down ev.
Proof.
  intros HI He. split.
  - intros H. since_cases H; [|done]. apply He in Hx. by rewrite HI in Hx by auto.
  - intros H. apply since_keep; [done|]. apply Forall_forall. intros x Hx Hd. apply He in Hx. by rewrite HI in Hx by auto.
Qed.
Lemma waiting_less c r ev e : (forall x, x ∈ e -> ~ exists c r o, x = EvLinkReq c r o) -> waiting c r (ev ++ e) -> waiting c r ev.
Proof. intros He Hw. since_cases Hw; [|done]. subst x. apply He in Hx. destruct Hx. eauto. Qed.
Lemma snoc2 {E} (ev : list E) x y : ev ++ [x; y] = (ev ++ [x]) ++ [y].
Proof. by rewrite <- (assoc_L (++)). Qed.
Lemma linked_snoc c ev x : linked c (ev ++ [x]) <->
  match x with
  | EvLinkAns k _ LOk => k = c \/ linked c ev
  | EvUnlinkOk k | EvGotNotify k => k <> c /\ linked c ev
  | _ => linked c ev
  end.
Proof. unfold linked at 1. rewrite since_snoc. destruct x; repeat case_match; naive_solver. Qed.
Lemma asked_snoc c ev x : asked c (ev ++ [x]) <->
  match x with
  | EvLinkAns k _ LOk => k <> c /\ asked c ev
  | EvUnlinkReq k _ => k = c \/ asked c ev
  | _ => asked c ev
  end.
Proof. unfold asked at 1. rewrite since_snoc. destruct x; repeat case_match; naive_solver. Qed.
Lemma waiting_snoc c r ev x : waiting c r (ev ++ [x]) <->
  match x with
  | EvLinkReq k q o => k = c /\ q = r /\ o = true \/ waiting c r ev
  | EvLinkAns k q _ => ~ (k = c /\ q = r) /\ waiting c r ev
  | EvUnlinkOk k | EvGotNotify k => k <> c /\ waiting c r ev
  | _ => waiting c r ev
  end.
Proof. unfold waiting at 1. rewrite since_snoc. destruct x; naive_solver. Qed.
Lemma reach_cl s ev : reach s ev -> inv_cl s ev.
Proof.
  apply (reach_inv D inv_cl).
  - intros c. cbn. rewrite lookup_empty. split_and!; try done; [|intros r ?%since_nil; done].
    split; [by intros ?%since_nil|by intros (? & ? & ?)].
  - clear. intros s ev e s' _ HI Hm.
    assert (Hq : forall e s', x_cl s' = x_cl s -> (forall x, x ∈ e -> cl_ev x = false) -> inv_cl s' (ev ++ e)).
    { intros e1 s1 Hr He c. rewrite Hr. destruct (HI c) as (I1 & I2 & I3 & I4).
      assert (HL : linked c (ev ++ e1) <-> linked c ev) by (apply (since_same _ _ cl_ev); [intros x [[r ->]|[-> | ->]]; done|done]).
      assert (HA : asked c (ev ++ e1) <-> asked c ev) by (apply (since_same _ _ cl_ev); [intros x [[r ->]|[r ->]]; done|done]).
      rewrite HL. split; [exact I1|]. split; [by intros ? ?%HA; apply I2|]. split; [intros id Hid; apply HA; eauto|].
      intros r Hw. apply I4. eapply waiting_less; [|exact Hw]. intros x Hx (? & ? & ? & ->). by apply He in Hx. }
    destruct Hm; vote; try (apply Hq; [reflexivity|by no_event]).
    all: intros k; destruct (HI k) as (I1 & I2 & I3 & I4); clear Hq HI.
    all: rewrite ?snoc2, ?linked_snoc, ?asked_snoc; repeat setoid_rewrite waiting_snoc; repeat setoid_rewrite asked_snoc; cbn.
    all: destruct (decide (c = k)) as [->|Hck].
    all: rewrite ?lookup_insert, ?lookup_delete, ?lookup_insert_ne, ?lookup_delete_ne by done.
    all: split; [|split; [|split]].
    all: try naive_solver.
Qed.

(** ** The state *)
Lemma state_of_app ev e : state_of (ev ++ e) = foldl (fun s x => match x with EvState _ n => n | _ => s end) (state_of ev) e.
Proof. apply foldl_app. Qed.
Lemma reach_state s ev : reach s ev -> x_st s = state_of ev.
Proof.
  apply (reach_inv D (fun s ev => x_st s = state_of ev)); [done|].
  clear. intros s ev e s' _ HI Hm. rewrite state_of_app, <- HI.
  destruct Hm; vote; try reflexivity.
  - by destruct d.
  - by destruct (bool_decide _).
  - cbn. symmetry. assert (Hn : forall x, x ∈ e -> match x with EvState _ _ => False | _ => True end) by no_event. clear -Hn.
    generalize (x_st s). induction e as [|x e IH]; intros st; cbn; [done|]. rewrite IH by (intros y Hy; apply Hn; by right).
    specialize (Hn x ltac:(by left)). by destruct x.
  - by destruct (x_sreq s).
Qed.

(** ** Votes of the shutdown *)
Definition inv_down (s : astore) (ev : list aev) : Prop :=
  (forall p, p ∈ shutdown_order -> x_d s p = false -> rank AShuttingDown <= rank (x_st s)) /\
  (x_d s PRs = false -> has_any s = false) /\ (x_d s PLs = false -> x_cl s = ∅) /\ (D -> x_d s PRg = false -> x_rm s = ∅).
Lemma reach_down s ev : reach s ev -> inv_down s ev.
Proof.
  apply (reach_inv D inv_down).
  - split; [|done]. intros p Hp. cbn. by rewrite bool_decide_true by done.
  - clear. intros s ev e s' HR (I1 & I2 & I3 & I4) Hm.
    assert (Hr : forall s', x_d s' = x_d s -> x_res s' = x_res s -> x_cl s' = x_cl s -> x_rm s' = x_rm s -> rank (x_st s) <= rank (x_st s') -> inv_down s' (ev ++ e)).
    { intros s1 E1 E2 E3 E4 E5. split; [|unfold has_any; rewrite E1, E2, E3, E4; done].
      intros p Hp Hd. rewrite E1 in Hd. specialize (I1 p Hp Hd). lia. }
    assert (HPs : PLs ∈ shutdown_order) by (cbn; set_solver).
    assert (HPr : PRg ∈ shutdown_order) by (cbn; set_solver).
    assert (HPres : PRs ∈ shutdown_order) by (cbn; set_solver).
    assert (Hc : forall s', x_d s' = x_d s -> x_res s' = x_res s -> x_rm s' = x_rm s -> x_st s' = x_st s -> (x_cl s = ∅ -> rank AShuttingDown <= rank (x_st s) -> x_cl s' = ∅) -> inv_down s' (ev ++ e)).
    { intros s1 E1 E2 E3 E4 E5. unfold inv_down, has_any. rewrite E1, E2, E3, E4. split_and!; auto. intros Hd. apply E5; eauto. }
    assert (Hn : forall s', x_d s' = x_d s -> x_res s' = x_res s -> x_cl s' = x_cl s -> x_st s' = x_st s -> (D -> x_rm s = ∅ -> rank AShuttingDown <= rank (x_st s) -> x_rm s' = ∅) -> inv_down s' (ev ++ e)).
    { intros s1 E1 E2 E3 E4 E5. unfold inv_down, has_any. rewrite E1, E2, E3, E4. split_and!; auto. intros HD Hd. apply E5; eauto. }
    destruct Hm; try (apply Hr; try reflexivity; cbn; lia).
    + apply Hn; try reflexivity. cbn. intros HD _ Hst. destruct (H HD) as [E _]. rewrite E in Hst. cbn in Hst. lia.
    + apply Hn; try reflexivity. intros _ E. rewrite E in H. by destruct H.
    + apply Hn; try reflexivity. intros _ E. rewrite E in H0. by destruct H0.
    + by apply Hn.
    + (* acquire *) unfold inv_down. cbn [x_d x_st x_cl x_rm w_d w_i w_res].
      destruct (negb (bool_decide (x_st s = AInitializing)) && (rank AOperational <=? rank (x_st s))) eqn:Eb.
      * split; [|split; [|split]].
        { intros p Hp Hd. destruct (decide (p = PRs)) as [->|Hne]; [by rewrite updp_eq in Hd|]. rewrite updp_ne in Hd by done. eauto. }
        { by rewrite updp_eq. }
        { rewrite updp_ne by done. done. }
        { rewrite updp_ne by done. done. }
      * split; [done|]. split; [|done]. intros Hd. specialize (I1 _ HPres Hd). apply andb_false_iff in Eb as [Eb|Eb].
        { rewrite negb_false_iff in Eb. apply bool_decide_eq_true in Eb. rewrite Eb in I1. cbn in I1. lia. }
        { apply N.leb_gt in Eb. cbn in *. lia. }
    + (* release *) split; [done|]. split; [|done]. intros Hd. specialize (I2 Hd). destruct (has_any _) eqn:E in |- *; [|done].
      apply has_any_dec in E. congruence.
    + apply Hr; try reflexivity. cbn. rewrite H. cbn. lia.
    + apply Hc; try reflexivity. intros E. by rewrite E in H0.
    + destruct b; apply Hr; try reflexivity; cbn; lia.
    + apply Hr; try reflexivity. rewrite H. cbn. lia.
    + apply Hc; try reflexivity. intros _ Hst. cbn in *. lia.
    + apply Hc; try reflexivity. intros _ Hst. cbn in *. lia.
    + apply Hc; try reflexivity. intros E. by rewrite E in H.
    + apply Hc; try reflexivity. cbn. intros E. rewrite E. by rewrite delete_empty.
    + apply Hc; try reflexivity. cbn. intros E. rewrite E. by rewrite delete_empty.
    + apply Hr; try reflexivity. cbn in *. lia.
    + destruct b; [|done]. unfold inv_down. cbn [x_d w_d x_st x_cl x_rm]. split; [|split; [|split]].
      * intros q Hq _. by rewrite H.
      * destruct (decide (p = PRs)) as [->|Hne]; [|by rewrite updp_ne by done]. intros _. cbn in H0. by apply negb_true_iff in H0.
      * destruct (decide (p = PLs)) as [->|Hne]; [|by rewrite updp_ne by done]. intros _. cbn in H0. by apply bool_decide_eq_true in H0.
      * destruct (decide (p = PRg)) as [->|Hne]; [|by rewrite updp_ne by done]. auto.
    + apply Hr; try reflexivity. rewrite H. cbn. lia.
Qed.

(** ** Answers to link requests *)
Lemma answers_app c r e1 e2 : answers c r (e1 ++ e2) = answers c r e1 ++ answers c r e2.
Proof. apply filter_app. Qed.
Definition reqs (ev : list aev) : list (N * N) := omap link_req ev.
Lemma reqs_app e1 e2 : reqs (e1 ++ e2) = reqs e1 ++ reqs e2.
Proof. apply omap_app. Qed.
Definition inv_ans (s : astore) (ev : list aev) : Prop := distinct_reqs ev -> forall c r,
  (length (answers c r ev) <= 1)%nat /\
  (answers c r ev <> [] -> (c, r) ∈ reqs ev) /\
  (x_cl s !! c = Some (CPending r) -> answers c r ev = [] /\ (c, r) ∈ reqs ev).
Lemma answers_none c r e : (forall x, x ∈ e -> match x with EvLinkAns _ _ _ => False | _ => True end) -> answers c r e = [].
Proof.
  intros He. unfold answers. induction e as [|x e IH]; [done|]. rewrite filter_cons_False; [apply IH; intros y Hy; apply He; by right|].
  specialize (He x ltac:(by left)). by destruct x.
Qed.
Lemma reqs_none e : (forall x, x ∈ e -> match x with EvLinkReq _ _ _ => False | _ => True end) -> reqs e = [].
Proof.
  intros He. unfold reqs. induction e as [|x e IH]; [done|]. cbn. specialize (IH ltac:(intros y Hy; apply He; by right)).
  specialize (He x ltac:(by left)). cbn in IH. by destruct x.
Qed.
Lemma reach_ans s ev : reach s ev -> inv_ans s ev.
Proof.
  apply (reach_inv D inv_ans).
  - intros _ c r. split; [cbn; lia|]. split; [done|]. cbn. by rewrite lookup_empty.
  - clear. intros s ev e s' _ HI Hm.
    assert (Hq : forall e s', (forall c r, x_cl s' !! c = Some (CPending r) -> x_cl s !! c = Some (CPending r)) ->
       (forall x, x ∈ e -> match x with EvLinkAns _ _ _ => False | EvLinkReq _ _ _ => False | _ => True end) -> inv_ans s' (ev ++ e)).
    { intros e1 s1 Hr He Hd c r. rewrite answers_app, reqs_app, (answers_none _ _ e1), (reqs_none e1), !app_nil_r by (intros x Hx; apply He in Hx; by destruct x).
      unfold distinct_reqs in Hd. rewrite omap_app in Hd. apply NoDup_app in Hd as [Hd _].
      destruct (HI Hd c r) as (I1 & I2 & I3). auto. }
    (* a new request which is answered at once *)
    assert (Hnow : forall c r o a s', (forall k q, x_cl s' !! k = Some (CPending q) -> x_cl s !! k = Some (CPending q)) -> inv_ans s' (ev ++ [EvLinkReq c r o; EvLinkAns c r a])).
    { intros c r o a s1 Hr Hd k q. unfold distinct_reqs in Hd. rewrite omap_app in Hd. apply NoDup_app in Hd as (Hd & Hn & _).
      destruct (HI Hd k q) as (I1 & I2 & I3). rewrite answers_app, reqs_app.
      assert (Hfr : (c, r) ∉ reqs ev) by (intros Hin; apply (Hn _ Hin); by left).
      assert (answers k q [EvLinkReq c r o; EvLinkAns c r a] = if decide (c = k /\ r = q) then [EvLinkAns c r a] else []) as ->.
      { unfold answers. cbn. unfold is_answer. destruct (decide (c = k /\ r = q)) as [Hcr|Hcr].
        - by rewrite bool_decide_true by done.
        - by rewrite bool_decide_false by done. }
      destruct (decide (c = k /\ r = q)) as [[-> ->]|Hcr].
      - assert (answers k q ev = []) as -> by (destruct (answers k q ev); [done|]; by destruct Hfr; apply I2). split; [cbn; lia|].
        split; [intros _; apply elem_of_app; right; by left|]. intros Hp. apply Hr, I3 in Hp as [_ ?]. done.
      - rewrite app_nil_r. split; [done|]. split; [intros ?; apply elem_of_app; left; auto|]. intros Hp. apply Hr, I3 in Hp as [? ?]. split; [done|].
        apply elem_of_app. by left. }
    destruct Hm; vote; try (apply Hq; [done|by no_event]).
    + (* answer *) intros Hd k q. rewrite answers_app, reqs_app. cbn [reqs omap link_req]. rewrite app_nil_r.
      unfold distinct_reqs in Hd. rewrite omap_app in Hd. apply NoDup_app in Hd as [Hd _].
      destruct (HI Hd k q) as (I1 & I2 & I3).
      assert (answers k q [EvLinkAns c r LOk] = if decide (c = k /\ r = q) then [EvLinkAns c r LOk] else []) as ->.
      { unfold answers. cbn. unfold is_answer. destruct (decide (c = k /\ r = q)) as [Hcr|Hcr].
        - by rewrite bool_decide_true by done.
        - by rewrite bool_decide_false by done. }
      destruct (decide (c = k /\ r = q)) as [[-> ->]|Hcr].
      * destruct (I3 H0) as [-> Hin]. split; [cbn; lia|]. split; [done|]. cbn. by rewrite lookup_insert.
      * rewrite app_nil_r. split; [done|]. split; [done|]. cbn. intros [[_ ?]|[_ ?]]%lookup_insert_Some; [done|]. auto.
    + by apply Hnow.
    + by apply Hnow.
    + (* kept *) intros Hd k q. rewrite answers_app, reqs_app. unfold distinct_reqs in Hd. rewrite omap_app in Hd. apply NoDup_app in Hd as (Hd & Hn & _).
      destruct (HI Hd k q) as (I1 & I2 & I3).
      assert (answers k q [EvLinkReq c r true] = []) as -> by done. rewrite app_nil_r.
      assert (Hfr : (c, r) ∉ reqs ev) by (intros Hin; apply (Hn _ Hin); by left).
      split; [done|]. split; [intros ?; apply elem_of_app; left; auto|]. cbn. intros [[<- [= <-]]|[_ ?]]%lookup_insert_Some.
      * split; [|apply elem_of_app; right; by left]. destruct (answers c r ev); [done|]. by destruct Hfr; apply I2.
      * destruct I3 as [? ?]; [done|]. split; [done|]. apply elem_of_app. by left.
    + apply Hnow. cbn. intros k q [[_ ?]|[_ ?]]%lookup_insert_Some; done.
    + apply Hq; [|by no_event]. cbn. intros k q [[_ ?]|[_ ?]]%lookup_insert_Some; done.
    + apply Hq; [|by no_event]. cbn. intros k q [_ ?]%lookup_delete_Some; done.
    + apply Hq; [|by no_event]. cbn. intros k q [_ ?]%lookup_delete_Some; done.
Qed.
(** A client which waits is pending; without repeated requests the converse holds. *)
Definition inv_wait (s : astore) (ev : list aev) : Prop :=
  (forall c r, x_cl s !! c = Some (CPending r) -> x_s s = true) /\
  (distinct_reqs ev -> forall c r, x_cl s !! c = Some (CPending r) -> waiting c r ev).
Lemma reach_wait s ev : reach s ev -> inv_wait s ev.
Proof.
  apply (reach_inv D inv_wait).
  - split; [intros c r|intros _ c r]; cbn; by rewrite lookup_empty.
  - clear. intros s ev e s' HR [HI HI2] Hm.
    assert (Hdd : distinct_reqs (ev ++ e) -> distinct_reqs ev) by (unfold distinct_reqs; rewrite omap_app; by intros [? _]%NoDup_app).
    assert (Hq : forall e s', (forall c r, x_cl s' !! c = Some (CPending r) -> x_cl s !! c = Some (CPending r)) -> x_s s' = x_s s ->
       (forall x, x ∈ e -> match x with EvLinkAns _ _ _ => False | EvUnlinkOk c | EvGotNotify c => forall r, x_cl s' !! c <> Some (CPending r) | _ => True end) ->
       (distinct_reqs (ev ++ e) -> distinct_reqs ev) -> inv_wait s' (ev ++ e)).
    { intros e1 s1 Hr Hs He Hd1. split; [intros c r Hp; rewrite Hs; eauto|]. intros Hd c r Hp. apply since_keep; [apply HI2; auto|].
      apply Forall_forall. intros x Hx [[a ->]|[-> | ->]]; apply He in Hx; [done|by apply (Hx r)|by apply (Hx r)]. }
    assert (Hnow : forall c r o a s', x_s s' = x_s s -> (forall k q, x_cl s' !! k = Some (CPending q) -> x_cl s !! k = Some (CPending q)) ->
       (distinct_reqs (ev ++ [EvLinkReq c r o; EvLinkAns c r a]) -> distinct_reqs ev) -> inv_wait s' (ev ++ [EvLinkReq c r o; EvLinkAns c r a])).
    { intros c r o a s1 Hs Hr Hd1. split; [intros k q Hp; rewrite Hs; eauto|]. intros Hd k q Hp. rewrite snoc2, !waiting_snoc.
      assert (Hw : waiting k q ev) by (apply HI2; auto). split; [|by right]. intros [-> ->].
      unfold distinct_reqs in Hd. rewrite omap_app in Hd. apply NoDup_app in Hd as (Hd & Hn & _).
      apply (Hn (k, q)); [|by left]. apply (reach_ans _ _ HR); auto. }
    destruct Hm; vote; try (apply Hq; [done|reflexivity|by no_event|done]).
    + (* answer *) split; [cbn; intros k q [[_ ?]|[_ ?]]%lookup_insert_Some; [done|by eauto]|].
      intros Hd k q. cbn. intros [[_ ?]|[Hk ?]]%lookup_insert_Some; [done|]. rewrite waiting_snoc. split; [intros [-> _]; done|]. apply HI2; auto.
    + split; [intros ? ? Hp; by apply H in Hp|]. intros ? ? ? Hp; by apply H in Hp.
    + by apply Hnow.
    + by apply Hnow.
    + split; [done|]. intros Hd k q. cbn. rewrite waiting_snoc. intros [[<- [= <-]]|[Hk ?]]%lookup_insert_Some; [by left|]. right. apply HI2; auto.
    + apply Hnow; [done| |done]. cbn. intros k q [[_ ?]|[_ ?]]%lookup_insert_Some; done.
    + apply Hq; [|done|by no_event|done]. cbn. intros k q [[_ ?]|[_ ?]]%lookup_insert_Some; done.
    + apply Hq; [done|done| |done]. intros x ->%elem_of_list_singleton r. by rewrite H.
    + apply Hq; [|done| |done]; cbn; [intros k q [_ ?]%lookup_delete_Some; done|]. intros x ->%elem_of_list_singleton r. by rewrite lookup_delete.
    + apply Hq; [|done| |done]; cbn; [intros k q [_ ?]%lookup_delete_Some; done|]. intros x ->%elem_of_list_singleton r. by rewrite lookup_delete.
Qed.
End inv.
