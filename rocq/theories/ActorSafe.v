(** Prudent use of an actor breaks no assertion: the invariant and what keeps it. *)
From stdpp Require Import base list gmap.
From Verif Require Import Base Prog ActorModel ActorSpec ActorMoves ActorReach ActorSafeSpec.
Open Scope N_scope.
Local Open Scope prog_scope.

(** The request was sent, and its response (or that of its timeout) has not come. *)
Definition out (s : astore) (q : query) : Prop := (exists id, x_pend s !! id = Some q) \/ q ∈ x_late s.

Ltac open_sane H := destruct H as (T & (L1 & L2 & L3 & L4) & (C1 & C2 & C3) & D & K & (A1 & A2 & A3 & A4) & (R1 & R2 & R3 & R4)).
Ltac split_sane := split; [|split; [split_and!|split; [split_and!|split; [|split; [|split; [split_and!|split_and!]]]]]].

Section inv.
Context (ra : N).

(** The table of requests. *)
Definition table (s : astore) : Prop :=
  (forall id q, x_pend s !! id = Some q -> id < x_next s) /\
  (forall i j q, x_pend s !! i = Some q -> x_pend s !! j = Some q -> i = j) /\
  (forall i q, x_pend s !! i = Some q -> q ∉ x_late s) /\ NoDup (x_late s).
(** Links; the answer of the one in [ex] is being handled. *)
Definition lks (ex : option N) (s : astore) : Prop :=
  (forall a, out s (QLink a) -> exists cb id, x_sv s !! a = Some (SRec cb (SLinking id))) /\
  (forall a cb id, x_sv s !! a = Some (SRec cb (SLinking id)) -> ex <> Some a -> x_pend s !! id = Some (QLink a) \/ QLink a ∈ x_late s) /\
  (forall a x, a ∈ x_uq s -> x_sv s !! a = Some x -> is_linking x = false) /\
  (forall a, ex = Some a -> ~ out s (QLink a) /\ is_Some (x_sv s !! a)).
Definition cls (s : astore) : Prop :=
  (forall c, out s (QUnlink c) -> x_sreq s = true /\ exists id, x_cl s !! c = Some (CUnlinking id)) /\
  (forall c id, x_cl s !! c = Some (CUnlinking id) -> id < x_next s /\ forall q, x_pend s !! id = Some q -> q = QUnlink c) /\
  (x_st s = AShuttingDown -> x_sreq s = true).
Definition dwn (s : astore) : Prop := x_st s = AShuttingDown -> forall a, QLink a ∉ x_late s.
Definition tsk (ex : option N) (s : astore) : Prop :=
  x_st s = AInitializing -> forall a n id, x_sv s !! a = Some (SRec (CbTask n) (SLinking id)) -> ex <> Some a ->
  exists l, x_al s !! a = Some l /\ n ∈ l /\ forall m, m ∈ l -> exists t, x_dm s !! m = Some t /\ t_addr t = Some a.
Definition ask (s : astore) : Prop :=
  (x_st s = AInitializing -> forall n, out s (QReg n) -> is_Some (x_rm s !! n)) /\
  (x_st s = AInitializing -> forall n, out s (QDisc n) -> exists t, x_dm s !! n = Some t /\ t_addr t = None) /\
  (x_lked s = false -> forall n, ~ out s (QReg n) /\ ~ out s (QDisc n)) /\
  (x_lked s = false -> forall n t, x_dm s !! n = Some t -> t_addr t = None).
Definition rgy (ex : option N) (s : astore) : Prop :=
  (forall a id, x_sv s !! a = Some (SRec CbRegistry (SLinking id)) -> ex <> Some a -> a = ra /\ x_lked s = false /\ x_lking s = true) /\
  (x_lking s = false -> x_lked s = false -> x_sv s !! ra = None /\ ra ∉ x_uq s) /\
  (x_conf s PRg = false -> x_lking s = false /\ x_lked s = false /\ x_rm s = ∅ /\ x_dm s = ∅) /\
  (x_st s = AInitializing -> x_conf s PLc = false -> x_sv s = ∅ /\ x_uq s = [] /\ x_conf s PRg = false /\ x_i s PLc = true).
Definition sane (ex : option N) (s : astore) : Prop :=
  table s /\ lks ex s /\ cls s /\ dwn s /\ tsk ex s /\ ask s /\ rgy ex s.

(** ** Changes which keep it *)
Lemma out_new s q p : table s -> out (w_req s q) p <-> p = q \/ out s p.
Proof.
  intros (T1 & _). unfold out, w_req. cbn. split.
  - intros [(id & [[_ <-]|[_ ?]]%lookup_insert_Some)|?]; [by left|right; left; eauto|by right; right].
  - intros [->|[(id & H)|?]]; [|left; exists id|by right].
    + left. exists (x_next s). apply lookup_insert.
    + rewrite lookup_insert_ne; [done|]. apply T1 in H. lia.
Qed.
Lemma table_new s q : table s -> ~ out s q -> table (w_req s q).
Proof.
  intros (T1 & T2 & T3 & T4) Hq. unfold table, w_req. cbn. split_and!; [| | |done].
  - intros id p [[<- _]|[_ H]]%lookup_insert_Some; [lia|]. apply T1 in H. lia.
  - intros i j p [[<- <-]|[Hi H1]]%lookup_insert_Some [[<- E]|[Hj H2]]%lookup_insert_Some; [done|destruct Hq; left; eauto|subst; destruct Hq; left; eauto|eauto].
  - intros i p [[_ <-]|[_ H]]%lookup_insert_Some; [|eauto]. intros ?. apply Hq. by right.
Qed.
(** A request for something which is none of the ones below. *)
Lemma pend_new s q id p : table s -> x_pend s !! id = Some p -> x_pend (w_req s q) !! id = Some p.
Proof. intros (T1 & _) H. unfold w_req. cbn. rewrite lookup_insert_ne; [done|]. apply T1 in H. lia. Qed.
Lemma pend_new_inv s q id p : x_pend (w_req s q) !! id = Some p -> id < x_next s -> x_pend s !! id = Some p.
Proof. unfold w_req. cbn. intros [[<- _]|[_ ?]]%lookup_insert_Some; [lia|done]. Qed.

Lemma sane_link ex s a cb : sane ex s -> x_sv s !! a = None -> a ∉ x_uq s ->
  (cb = CbNone /\ (x_st s = AInitializing -> x_conf s PLc = true) /\ a <> ra \/ cb = CbRegistry /\ a = ra /\ x_lking s = true /\ x_lked s = false /\ x_conf s PLc = true) ->
  sane ex (w_sv (w_req s (QLink a)) (<[a := SRec cb (SLinking (x_next s))]> (x_sv s))).
Proof.
  intros H Ha Hu Hcb. open_sane H.
  assert (Hn : ~ out s (QLink a)) by (intros (? & ? & ?)%L1; congruence).
  assert (HO : forall p, p <> QLink a -> out (w_req s (QLink a)) p -> out s p) by (intros p Hp [?|?]%out_new; done).
  split_sane; try assumption.
  - by apply (table_new s).
  - intros b Hb. cbn. destruct (decide (b = a)) as [->|Hne]; [rewrite lookup_insert; eauto|]. rewrite lookup_insert_ne by done. apply L1, HO; [congruence|done].
  - intros b cb' id. cbn [x_sv w_sv]. intros [[<- [= <- <-]]|[Hne H]]%lookup_insert_Some He.
    + left. apply lookup_insert.
    + destruct (L2 b cb' id H He) as [?|?]; [left; by apply (pend_new s)|by right].
  - intros b x Hb. cbn [x_sv w_sv]. intros [[<- _]|[_ H]]%lookup_insert_Some; [done|eauto].
  - intros b Hb. destruct (L4 b Hb) as [H1 H2]. assert (b <> a) by (intros ->; by rewrite Ha in H2; destruct H2).
    split; [intros ?%HO; congruence|]. cbn. by rewrite lookup_insert_ne.
  - intros c Hc. by apply C1, HO.
  - intros c id Hc. destruct (C2 c id Hc) as [H1 H2]. split; [cbn; lia|]. intros q Hq. by apply H2, (pend_new_inv s (QLink a)).
  - intros Hst b n id. cbn [x_sv w_sv]. intros [[<- [= -> _]]|[_ H]]%lookup_insert_Some He; [destruct Hcb as [[? _]|[? _]]; done|]. by eapply K.
  - intros Hst n Hn'. by apply A1, HO.
  - intros Hst n Hn'. by apply A2, HO.
  - intros HL n. split; intros Hn'%HO; try done; by apply A3 in Hn'.
  - intros b id. cbn [x_sv w_sv]. intros [[<- [= -> _]]|[_ H]]%lookup_insert_Some He; [|eauto]. destruct Hcb as [[? _]|(_ & ? & ? & ? & _)]; done.
  - intros H1 H2. destruct (R2 H1 H2) as [H3 H4]. cbn. split; [|done]. rewrite lookup_insert_ne; [done|]. destruct Hcb as [(_ & _ & ?)|(_ & _ & E & _)]; [done|].
    cbn in H1. congruence.
  - intros Hst Hc. cbn in Hc. destruct Hcb as [(_ & H & _)|(_ & _ & _ & _ & H)]; [rewrite H in Hc by done; done|congruence].
Qed.
(** A link for a discovered name. *)
Lemma sane_link_task ex s a n t : sane ex s -> x_sv s !! a = None -> a ∉ x_uq s -> x_conf s PLc = true -> x_lked s = true -> x_dm s !! n = Some t -> t_addr t = Some a ->
  sane ex (w_al (w_sv (w_req s (QLink a)) (<[a := SRec (CbTask n) (SLinking (x_next s))]> (x_sv s))) (<[a := [n]]> (x_al s))).
Proof.
  intros H Ha Hu Hc HL Ht Hta. open_sane H.
  assert (Hn : ~ out s (QLink a)) by (intros (? & ? & ?)%L1; congruence).
  assert (HO : forall p, p <> QLink a -> out (w_req s (QLink a)) p -> out s p) by (intros p Hp [?|?]%out_new; done).
  split_sane; try assumption.
  - by apply (table_new s).
  - intros b Hb. cbn. destruct (decide (b = a)) as [->|Hne]; [rewrite lookup_insert; eauto|]. rewrite lookup_insert_ne by done. apply L1, HO; [congruence|done].
  - intros b cb' id. cbn [x_sv w_sv w_al]. intros [[<- [= <- <-]]|[Hne H]]%lookup_insert_Some He.
    + left. apply lookup_insert.
    + destruct (L2 b cb' id H He) as [?|?]; [left; by apply (pend_new s)|by right].
  - intros b x Hb. cbn [x_sv w_sv w_al]. intros [[<- _]|[_ H]]%lookup_insert_Some; [done|eauto].
  - intros b Hb. destruct (L4 b Hb) as [H1 H2]. assert (b <> a) by (intros ->; by rewrite Ha in H2; destruct H2).
    split; [intros ?%HO; congruence|]. cbn. by rewrite lookup_insert_ne.
  - intros c Hc'. by apply C1, HO.
  - intros c id Hc'. destruct (C2 c id Hc') as [H1 H2]. split; [cbn; lia|]. intros q Hq. by apply H2, (pend_new_inv s (QLink a)).
  - intros Hst b m id. cbn [x_sv w_sv w_al x_al x_dm]. intros [[<- [= -> _]]|[Hne H]]%lookup_insert_Some He.
    + exists [m]. rewrite lookup_insert. split; [done|]. split; [by left|]. intros k ->%elem_of_list_singleton. eauto.
    + rewrite lookup_insert_ne by done. by eapply K.
  - intros Hst m Hn'. by apply A1, HO.
  - intros Hst m Hn'. by apply A2, HO.
  - intros HL' m. split; intros Hn'%HO; try done; by apply A3 in Hn'.
  - intros b id. cbn [x_sv w_sv w_al]. intros [[<- [= ]]|[_ H]]%lookup_insert_Some He. eauto.
  - intros H1 H2. cbn in H2. congruence.
  - intros Hst Hc'. cbn in Hc'. congruence.
Qed.
Lemma sane_alias ex s a l n t : sane ex s -> x_al s !! a = Some l -> x_dm s !! n = Some t -> t_addr t = Some a ->
  sane ex (w_al s (<[a := l ++ [n]]> (x_al s))).
Proof.
  intros H Ha Ht Hta. open_sane H. split_sane; try assumption.
  intros Hst b m id Hb He. destruct (K Hst b m id Hb He) as (l' & H1 & H2 & H3). cbn. destruct (decide (b = a)) as [->|Hne].
  - exists (l ++ [n]). rewrite lookup_insert. replace l' with l in * by congruence. split; [done|]. split; [apply elem_of_app; by left|].
    intros k [?| ->%elem_of_list_singleton]%elem_of_app; eauto.
  - exists l'. by rewrite lookup_insert_ne.
Qed.
(** The address of a task. *)
Lemma sane_found ex s n t a : sane ex s -> x_dm s !! n = Some t -> t_addr t = None -> ~ out s (QDisc n) -> x_lked s = true ->
  sane ex (w_dm s (<[n := set_addr t a]> (x_dm s))).
Proof.
  intros H Hn Ht Ho HL. open_sane H. split_sane; try assumption.
  - intros Hst b m id Hb He. destruct (K Hst b m id Hb He) as (l' & H1 & H2 & H3). exists l'. split; [done|]. split; [done|].
    intros k Hk. destruct (H3 k Hk) as (t' & H4 & H5). exists t'. split; [|done]. cbn. rewrite lookup_insert_ne; [done|]. intros <-. congruence.
  - intros Hst m Hm. cbn. rewrite lookup_insert_ne; [by apply A2|]. by intros <-.
  - intros HL'. cbn in HL'. congruence.
  - intros Hc. destruct (R3 Hc) as (_ & _ & _ & E). by rewrite E, lookup_empty in Hn.
Qed.
(** Tasks are done. *)
Lemma del_all_lookup l m n : del_all l m !! n = if decide (n ∈ l) then None else m !! n.
Proof.
  unfold del_all. revert m. induction l as [|x l IH]; intros m; cbn; [by rewrite decide_False by (by intros ?%elem_of_nil)|]. rewrite IH.
  destruct (decide (n ∈ l)) as [Hl|Hl]; [by rewrite decide_True by (by right)|]. destruct (decide (n = x)) as [->|Hne].
  - rewrite decide_True by left. apply lookup_delete.
  - rewrite decide_False by (by intros [?|?]%elem_of_cons). by apply lookup_delete_ne.
Qed.
Lemma sane_drop ex s l : sane ex s -> (x_st s = AInitializing -> forall m, m ∈ l -> ~ out s (QDisc m)) ->
  (x_st s = AInitializing -> forall a n id l', x_sv s !! a = Some (SRec (CbTask n) (SLinking id)) -> ex <> Some a -> x_al s !! a = Some l' -> forall m, m ∈ l' -> m ∉ l) ->
  sane ex (w_dm s (del_all l (x_dm s))).
Proof.
  intros H Ho Hd. open_sane H. split_sane; try assumption.
  - intros Hst b m id Hb He. destruct (K Hst b m id Hb He) as (l' & H1 & H2 & H3). exists l'. split; [done|]. split; [done|].
    intros k Hk. destruct (H3 k Hk) as (t' & H4 & H5). exists t'. split; [|done]. cbn. rewrite del_all_lookup, decide_False; [done|]. by eapply Hd.
  - intros Hst m Hm. cbn. rewrite del_all_lookup, decide_False; [by apply A2|]. intros Hl. by destruct (Ho Hst m Hl).
  - intros HL m t. cbn. rewrite del_all_lookup. destruct (decide _); [done|]. by apply A4.
  - intros Hc. destruct (R3 Hc) as (E1 & E2 & E3 & E4). split_and!; try done. cbn. rewrite E4. unfold del_all. clear. induction l as [|x l IH]; cbn; [done|]. by rewrite delete_empty.
Qed.
(** An answer to a registration. *)
Lemma sane_rm ex s n r : sane ex s -> ~ out s (QReg n) -> is_Some (x_rm s !! n) -> (forall m, m <> n -> r !! m = x_rm s !! m) -> sane ex (w_rm s r).
Proof.
  intros H Ho Hs Hr. open_sane H. split_sane; try assumption.
  - intros Hst m Hm. cbn. rewrite Hr; [by apply A1|]. by intros ->.
  - intros Hc. destruct (R3 Hc) as (_ & _ & E & _). rewrite E, lookup_empty in Hs. by destruct Hs.
Qed.
(** The link is answered. *)
Lemma sane_up s a cb : sane (Some a) s -> sane None (w_sv s (<[a := SRec cb SOperational]> (x_sv s))).
Proof.
  intros H. open_sane H. destruct (L4 a eq_refl) as [Ho [x Hx]]. split_sane; try assumption.
  - intros b Hb. cbn. destruct (decide (b = a)) as [->|Hne]; [done|]. rewrite lookup_insert_ne by done. by apply L1.
  - intros b cb' id. cbn [x_sv w_sv]. intros [[<- [= ]]|[Hne H]]%lookup_insert_Some _. apply (L2 b cb' id H). congruence.
  - intros b y Hb. cbn [x_sv w_sv]. intros [[<- <-]|[_ H]]%lookup_insert_Some; [done|eauto].
  - done.
  - intros Hst b m id. cbn [x_sv w_sv]. intros [[<- [= ]]|[Hne H]]%lookup_insert_Some _. apply (K Hst b m id H). congruence.
  - intros b id. cbn [x_sv w_sv]. intros [[<- [= ]]|[Hne H]]%lookup_insert_Some _. apply (R1 b id H). congruence.
  - intros H1 H2. destruct (R2 H1 H2) as [H3 H4]. split; [|done]. cbn. rewrite lookup_insert_ne; [done|]. congruence.
  - intros Hst Hc. destruct (R4 Hst Hc) as [E _]. by rewrite E, lookup_empty in Hx.
Qed.
(** A server is forgotten; [ex] may be the one. *)
Lemma sane_forget ex s a : sane ex s -> (ex = Some a \/ ex = None) -> ~ out s (QLink a) -> sane None (w_sv s (delete a (x_sv s))).
Proof.
  intros H He Ho. assert (Hb' : forall b, b <> a -> ex <> Some b) by (intros b Hb; destruct He as [->| ->]; congruence).
  open_sane H. split_sane; try assumption.
  - intros b Hb. cbn. destruct (decide (b = a)) as [->|Hne]; [done|]. rewrite lookup_delete_ne by done. by apply L1.
  - intros b cb' id. cbn [x_sv w_sv]. intros [Hne H]%lookup_delete_Some _. apply (L2 b cb' id H). auto.
  - intros b y Hb. cbn [x_sv w_sv]. intros [Hne H]%lookup_delete_Some. eauto.
  - done.
  - intros Hst b m id. cbn [x_sv w_sv]. intros [Hne H]%lookup_delete_Some _. apply (K Hst b m id H). auto.
  - intros b id. cbn [x_sv w_sv]. intros [Hne H]%lookup_delete_Some _. apply (R1 b id H). auto.
  - intros H1 H2. destruct (R2 H1 H2) as [H3 H4]. split; [|done]. cbn. destruct (decide (a = ra)) as [->|]; [apply lookup_delete|by rewrite lookup_delete_ne].
  - intros Hst Hc. destruct (R4 Hst Hc) as (E & E2 & E3). split_and!; try done; [|apply E3..]. cbn. rewrite E. apply delete_empty.
Qed.
Lemma sane_queue ex s a x : sane ex s -> x_sv s !! a = Some x -> is_linking x = false -> sane ex (w_uq s (x_uq s ++ [a])).
Proof.
  intros H Ha Hx. open_sane H. split_sane; try assumption.
  - intros b y [Hb| ->%elem_of_list_singleton]%elem_of_app Hy; [by eapply L3|]. cbn in Hy. congruence.
  - intros H1 H2. destruct (R2 H1 H2) as [H3 H4]. split; [done|]. intros [?|E%elem_of_list_singleton]%elem_of_app; [done|]. congruence.
  - intros Hst Hc. destruct (R4 Hst Hc) as [E _]. by rewrite E, lookup_empty in Ha.
Qed.

(** ** Requests *)
(** An answer to [q] arrives. *)
Definition hole (q : query) : option N := match q with QLink a => Some a | _ => None end.
Lemma sane_less s q p l : sane None s -> out s q ->
  (forall id x, p !! id = Some x <-> x_pend s !! id = Some x /\ x <> q) -> (forall x, x ∈ l <-> x ∈ x_late s /\ x <> q) -> NoDup l ->
  sane (hole q) (w_late (w_pend s p) l) /\ ~ out (w_late (w_pend s p) l) q.
Proof.
  intros H Hq Hp Hl HN. open_sane H.
  assert (HO : forall x, out (w_late (w_pend s p) l) x <-> out s x /\ x <> q).
  { intros x. unfold out. cbn. rewrite Hl. setoid_rewrite Hp. naive_solver. }
  split; [|by intros [_ ?]%HO]. assert (HH : forall a, hole q <> Some a -> QLink a <> q) by (intros a Ha <-; done).
  split_sane; try assumption.
  - destruct T as (T1 & T2 & T3 & T4). split_and!; cbn; [| | |done].
    + intros id x [? _]%Hp. eauto.
    + intros i j x [? _]%Hp [? _]%Hp. eauto.
    + intros i x [? _]%Hp [? _]%Hl. by eapply T3.
  - intros a [? _]%HO. by apply L1.
  - intros a cb id Ha He. destruct (L2 a cb id Ha) as [H1|H1]; [done|left|right].
    + apply Hp. split; [done|]. by apply HH.
    + apply Hl. split; [done|]. by apply HH.
  - intros a E. assert (E' : q = QLink a) by (destruct q; cbn in E; congruence). split; [rewrite HO, E'; naive_solver|].
    rewrite E' in Hq. apply L1 in Hq as (cb & id & Hs). by eexists.
  - intros c [? _]%HO. by apply C1.
  - intros c id Hc. destruct (C2 c id Hc) as [H1 H2]. split; [done|]. intros x [? _]%Hp. auto.
  - intros Hst a [? _]%Hl. by apply (D Hst a).
  - intros Hst a n id Ha He. by apply (K Hst a n id).
  - intros Hst n [? _]%HO. by apply A1.
  - intros Hst n [? _]%HO. by apply A2.
  - intros HL n. destruct (A3 HL n). split; by intros [? _]%HO.
  - intros a id Ha He. by apply (R1 a id).
Qed.
Lemma w_late_same s p : w_late (w_pend s p) (x_late s) = w_pend s p.
Proof. by destruct s. Qed.
Lemma sane_resp s id q : sane None s -> x_pend s !! id = Some q ->
  sane (hole q) (w_pend s (delete id (x_pend s))) /\ ~ out (w_pend s (delete id (x_pend s))) q.
Proof.
  intros H Hq. rewrite <- w_late_same. pose proof H as ((T1 & T2 & T3 & T4) & _). apply sane_less; [done|left; eauto| | |done].
  - intros j x. rewrite lookup_delete_Some. split.
    + intros [Hn Hx]. split; [done|]. intros ->. destruct Hn. by eapply T2.
    + intros [Hx Hn]. split; [|done]. intros <-. congruence.
  - intros x. split; [intros Hx; split; [done|]; intros ->; by eapply T3|by intros [? _]].
Qed.
Lemma sane_late s q l : sane None s -> x_late s = q :: l ->
  sane (hole q) (w_late s l) /\ ~ out (w_late s l) q.
Proof.
  intros H Hq. replace (w_late s l) with (w_late (w_pend s (x_pend s)) l) by by destruct s. pose proof H as ((T1 & T2 & T3 & T4) & _).
  rewrite Hq in T4. apply NoDup_cons in T4 as [Hn T4]. apply sane_less; [done|right; rewrite Hq; by left| | |done].
  - intros j x. split; [intros Hx; split; [done|]; intros ->; apply (T3 _ _ Hx); rewrite Hq; by left|by intros [? _]].
  - intros x. rewrite Hq, elem_of_cons. split; [intros Hx; split; [by right|]; by intros ->|by intros [[?|?] ?]].
Qed.
Lemma sane_timeout s id q : sane None s -> x_pend s !! id = Some q -> (linkq q = true -> x_st s <> AShuttingDown) ->
  sane None (w_late (w_pend s (delete id (x_pend s))) (x_late s ++ [q])).
Proof.
  intros H Hq Hd. open_sane H. destruct T as (T1 & T2 & T3 & T4).
  set (s' := w_late _ _). assert (HO : forall x, out s' x <-> out s x).
  { intros x. unfold out, s'. cbn. rewrite elem_of_app, elem_of_list_singleton. split.
    - intros [(j & [_ ?]%lookup_delete_Some)|[?| ->]]; eauto.
    - intros [(j & Hj)|?]; [|by right; left]. destruct (decide (id = j)) as [->|Hn]; [right; right; congruence|]. left. exists j. by rewrite lookup_delete_ne. }
  split_sane; try assumption.
  - split_and!; cbn.
    + intros j x [_ ?]%lookup_delete_Some. eauto.
    + intros i j x [_ ?]%lookup_delete_Some [_ ?]%lookup_delete_Some. eauto.
    + intros j x [Hn Hj]%lookup_delete_Some [?| ->%elem_of_list_singleton]%elem_of_app; [by eapply T3|]. apply Hn. by eapply T2.
    + apply NoDup_app. split_and!; [done| |apply NoDup_singleton]. intros x Hx ->%elem_of_list_singleton. by eapply T3.
  - intros a Ha%HO. by apply L1.
  - intros a cb j Ha He. destruct (L2 a cb j Ha He) as [H|H]; [|right; apply elem_of_app; by left].
    destruct (decide (id = j)) as [->|Hn]; [right; apply elem_of_app; right; apply elem_of_list_singleton; congruence|]. left. unfold s'. cbn. by rewrite lookup_delete_ne.
  - done.
  - intros c Hc%HO. by apply C1.
  - intros c j Hc. destruct (C2 c j Hc) as [H1 H2]. split; [done|]. intros x. unfold s'. cbn. intros [_ ?]%lookup_delete_Some. auto.
  - intros Hst a. unfold s'. cbn. intros [Ha|E%elem_of_list_singleton]%elem_of_app; [by apply (D Hst a)|]. subst q. by apply Hd.
  - intros Hst n Hn%HO. by apply A1.
  - intros Hst n Hn%HO. by apply A2.
  - intros HL n. rewrite !HO. by apply A3.
Qed.
(** A request of the registry plugin. *)
Lemma sane_req ex s q : sane ex s -> ~ out s q -> x_lked s = true ->
  match q with
  | QReg n => is_Some (x_rm s !! n)
  | QDisc n => exists t, x_dm s !! n = Some t /\ t_addr t = None
  | _ => False
  end -> sane ex (w_req s q).
Proof.
  intros H Ho HL Hq. open_sane H.
  assert (HO : forall p, out (w_req s q) p -> p = q \/ out s p) by (intros p ?%out_new; done).
  split_sane; try assumption.
  - by apply table_new.
  - intros a [<-|?]%HO; [done|by apply L1].
  - intros a cb id Ha He. destruct (L2 a cb id Ha He) as [?|?]; [left; by apply pend_new|by right].
  - intros a Ha. destruct (L4 a Ha) as [H1 H2]. split; [|done]. intros [<-|?]%HO; done.
  - intros c [<-|?]%HO; [done|by apply C1].
  - intros c id Hc. destruct (C2 c id Hc) as [H1 H2]. split; [cbn; lia|]. intros x Hx. by apply H2, (pend_new_inv s q).
  - intros Hst n [<-|?]%HO; [done|by apply A1].
  - intros Hst n [<-|?]%HO; [done|by apply A2].
  - intros HL'. cbn in HL'. congruence.
Qed.

(** ** Clients *)
Lemma sane_cl ex s c x : sane ex s -> (forall id, x <> CUnlinking id) -> (forall id, x_cl s !! c <> Some (CUnlinking id)) -> sane ex (w_cl s (<[c := x]> (x_cl s))).
Proof.
  intros H Hx Hc. open_sane H. split_sane; try assumption.
  - intros k Hk. destruct (C1 k Hk) as (H1 & id & H2). split; [done|]. exists id. cbn. rewrite lookup_insert_ne; [done|]. intros <-. by apply (Hc id).
  - intros k id. cbn [x_cl w_cl]. intros [[_ E]|[_ Hk]]%lookup_insert_Some; [by destruct (Hx id)|by apply C2].
Qed.
Lemma sane_ask s c : sane None s -> x_cl s !! c = Some COperational -> x_st s = AShuttingDown ->
  sane None (w_cl (w_req s (QUnlink c)) (<[c := CUnlinking (x_next s)]> (x_cl s))).
Proof.
  intros H Hc Hst. open_sane H.
  assert (Ho : ~ out s (QUnlink c)) by (intros (_ & ? & ?)%C1; congruence).
  assert (HO : forall p, p <> QUnlink c -> out (w_req s (QUnlink c)) p -> out s p) by (intros p Hp [?|?]%out_new; done).
  split_sane; try assumption.
  - by apply (table_new s).
  - intros a Ha. by apply L1, HO.
  - intros a cb id Ha He. destruct (L2 a cb id Ha He) as [?|?]; [left; by apply (pend_new s)|by right].
  - done.
  - intros k Hk. cbn. split; [by apply C3|]. destruct (decide (k = c)) as [->|Hne]; [rewrite lookup_insert; eauto|]. rewrite lookup_insert_ne by done. apply C1, HO; [congruence|done].
  - intros k id. cbn [x_cl w_cl]. intros [[<- [= <-]]|[Hne Hk]]%lookup_insert_Some.
    + split; [cbn; lia|]. cbn. rewrite lookup_insert. naive_solver.
    + destruct (C2 k id Hk) as [H1 H2]. split; [cbn; lia|]. intros x Hx. by apply H2, (pend_new_inv s (QUnlink c)).
  - intros Hst' n Hn. by apply A1, HO.
  - intros Hst' n Hn. by apply A2, HO.
  - intros HL n. split; intros Hn%HO; try done; by apply A3 in Hn.
Qed.
Lemma sane_gone s c : sane None s -> ~ out s (QUnlink c) -> sane None (w_cl s (delete c (x_cl s))).
Proof.
  intros H Ho. open_sane H. split_sane; try assumption.
  - intros k Hk. destruct (C1 k Hk) as (H1 & id & H2). split; [done|]. exists id. cbn. rewrite lookup_delete_ne; [done|]. by intros ->.
  - intros k id. cbn [x_cl w_cl]. intros [_ Hk]%lookup_delete_Some. by apply C2.
Qed.
(** ** States *)
Lemma sane_st ex s st : sane ex s -> st <> AInitializing -> (st = AShuttingDown -> x_sreq s = true /\ forall a, QLink a ∉ x_late s) -> sane ex (w_st s st).
Proof.
  intros H Hst Hd. open_sane H. split_sane; try assumption; try done.
  - intros E. by apply Hd.
  - intros E. by apply Hd.
  - intros E. by destruct Hst.
Qed.
Lemma sane_sreq ex s : sane ex s -> sane ex (w_sreq s true).
Proof. intros H. open_sane H. split_sane; try assumption; try done. intros c Hc. split; [done|]. by apply C1. Qed.
End inv.
