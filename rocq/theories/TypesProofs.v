(** Proofs for C70. *)
From stdpp Require Import base list gmap.
From Verif Require Import Base TypesModel TypesSpec.
Open Scope N_scope.

Section types.
Context (name : N -> N).
Record Inv (s : tstate) : Prop := {
  i_map : forall n p, (n, p) ∈ t_map s -> exists m, t_mem s !! p = Some (m, n) /\ p <> 0;
  i_nodup : NoDup (t_map s).*1;
  i_names : forall m t p, t_names s !! (m, t) = Some p -> t_mem s !! p = Some (m, name t) /\ p <> 0;
  i_vars : forall m t q, t_vars s !! (m, t) = Some q -> (name t, q) ∈ t_map s;
  i_msgs : forall t p, (t, p) ∈ t_msgs s -> (name t, p) ∈ t_map s;
  i_hs : forall m t k, (m, t, k) ∈ t_hs s -> t_vars s !! (m, t) = Some k }.
Lemma Inv_init : Inv tinit.
Proof. split; cbn; intros; try (by apply elem_of_nil in H); try done; by constructor. Qed.

Lemma map_left s n n' p : Inv s -> (n, p) ∈ t_map s -> (n', p) ∈ t_map s -> n = n'.
Proof. intros HI H1 H2. destruct (i_map _ HI _ _ H1) as (m & E & _). destruct (i_map _ HI _ _ H2) as (m' & E' & _). congruence. Qed.
Lemma fst_right (l : list (N * N)) n p p' : NoDup l.*1 -> (n, p) ∈ l -> (n, p') ∈ l -> p = p'.
Proof.
  induction l as [|[a b] l IH]; cbn; [by intros _ ?%elem_of_nil|]. intros [Ha Hl]%NoDup_cons. intros H1%elem_of_cons H2%elem_of_cons. destruct H1 as [H1|H1], H2 as [H2|H2]; simplify_eq; try done.
  - exfalso. apply Ha. apply elem_of_list_fmap. by eexists (_, _).
  - exfalso. apply Ha. apply elem_of_list_fmap. by eexists (_, _).
  - by apply IH.
Qed.
Lemma map_right s n p p' : Inv s -> (n, p) ∈ t_map s -> (n, p') ∈ t_map s -> p = p'.
Proof. intros HI. apply fst_right. apply (i_nodup _ HI). Qed.

Lemma find_ok mem l n : (forall n p, (n, p) ∈ l -> exists m, mem !! p = Some (m, n) /\ p <> 0) ->
  (exists p, find mem l n = Ok (Some p) /\ (n, p) ∈ l) \/ (find mem l n = Ok None /\ n ∉ l.*1).
Proof.
  induction l as [|[h p] l IH]; cbn; intros H; [right; split; [done|by apply not_elem_of_nil]|].
  destruct (bool_decide_reflect (h = n)) as [->|Hn].
  - destruct (H n p) as (m & -> & _); [left|]. rewrite bool_decide_true by done. left. exists p. split; [done|left].
  - destruct IH as [(q & E & Hq)|[E Hq]]; [intros a b Hab; apply H; by right| |].
    + left. exists q. split; [done|by right].
    + right. split; [done|]. apply not_elem_of_cons. done.
Qed.
Lemma register_ok s m n p : Inv s -> t_mem s !! p = Some (m, n) -> exists l q, register s p = Ok (l, q) /\ (n, q) ∈ l /\ (forall x, x ∈ t_map s -> x ∈ l) /\ (forall x, x ∈ l -> x ∈ t_map s \/ x = (n, p)) /\ NoDup l.*1.
Proof.
  intros HI Hp. unfold register. rewrite Hp. destruct (find_ok (t_mem s) (t_map s) n (i_map _ HI)) as [(q & E & Hq)|[E Hq]]; rewrite E; cbn.
  - exists (t_map s), q. split; [done|]. split; [done|]. split; [done|]. split; [by left|]. apply (i_nodup _ HI).
  - exists (t_map s ++ [(n, p)]), p. split; [done|]. split; [apply elem_of_app; right; left|]. split; [intros x Hx; apply elem_of_app; by left|]. split.
    + intros x [Hx|Hx%elem_of_list_singleton]%elem_of_app; by auto.
    + rewrite fmap_app. cbn. apply NoDup_app. split; [apply (i_nodup _ HI)|]. split; [|by apply NoDup_singleton]. intros x Hx ->%elem_of_list_singleton. by apply Hq.
Qed.

(** Loading. *)
Lemma load_same s m l : t_map (load name s m l) = t_map s /\ t_vars (load name s m l) = t_vars s /\ t_msgs (load name s m l) = t_msgs s /\ t_hs (load name s m l) = t_hs s.
Proof. unfold load. revert s. induction l as [|[t p] l IH]; intros s; cbn; [done|]. destruct (IH (TSt (<[p:=(m, name t)]> (t_mem s)) (<[(m, t):=p]> (t_names s)) (t_map s) (t_vars s) (t_msgs s) (t_hs s))) as (-> & -> & -> & ->). done. Qed.
Lemma load_inv s m l : Inv s -> (forall t, t ∈ l.*1 -> t_names s !! (m, t) = None) -> NoDup l.*1 -> NoDup l.*2 -> (forall t p, (t, p) ∈ l -> p <> 0 /\ t_mem s !! p = None) -> Inv (load name s m l).
Proof.
  unfold load. revert s. induction l as [|[t p] l IH]; intros s HI Hn Hd1 Hd2 Hp; cbn; [done|].
  apply NoDup_cons in Hd1 as [Ht Hd1]. apply NoDup_cons in Hd2 as [Hq Hd2]. destruct (Hp t p) as [Hp0 Hpm]; [left|].
  assert (HL : forall p', t_mem s !! p' <> None -> <[p:=(m, name t)]> (t_mem s) !! p' = t_mem s !! p') by (intros p' Hp'; rewrite lookup_insert_ne; [done|intros ->; done]).
  apply IH; try done.
  - split; cbn.
    + intros n q Hnq. destruct (i_map _ HI _ _ Hnq) as (m' & E & H0). exists m'. rewrite HL by (by rewrite E). done.
    + apply (i_nodup _ HI).
    + intros m' t' q. destruct (decide ((m, t) = (m', t'))) as [[= <- <-]|Hne].
      * rewrite lookup_insert. intros [= <-]. by rewrite lookup_insert.
      * rewrite lookup_insert_ne by done. intros Hq'. destruct (i_names _ HI _ _ _ Hq') as [E H0]. rewrite HL by (by rewrite E). done.
    + apply (i_vars _ HI).
    + apply (i_msgs _ HI).
    + apply (i_hs _ HI).
  - intros t' Ht'. cbn. rewrite lookup_insert_ne by (intros [= ->]; done). apply Hn. cbn. by right.
  - intros t' p' Htp. cbn. destruct (Hp t' p') as [? ?]; [by right|]. split; [done|]. rewrite lookup_insert_ne; [done|]. intros ->. apply Hq. apply elem_of_list_fmap. by exists (t', p').
Qed.

(** Deliveries. *)
Lemma calls_ok s t p l : Inv s -> (name t, p) ∈ t_map s -> (forall x, x ∈ l -> x ∈ t_hs s) -> (forall m t' k, (m, t', k) ∈ l -> name t' = name t -> t' = t) ->
  calls s t p l = Ok (omap (fun '(m, t', _) => if decide (t' = t) then Some (ECalled m t') else None) l).
Proof.
  intros HI Hp. induction l as [|[[m t'] k] l IH]; cbn; intros Hl Hn; [done|].
  assert (Hh : (m, t', k) ∈ t_hs s) by (apply Hl; left). pose proof (i_hs _ HI _ _ _ Hh) as Hv. pose proof (i_vars _ HI _ _ _ Hv) as Hk. unfold var. rewrite Hv. cbn.
  rewrite IH by (try (intros x Hx; apply Hl; by right); intros m0 t0 k0 H0; apply (Hn m0 t0 k0); by right).
  destruct (decide (t' = t)) as [->|Hne].
  - pose proof (map_right _ _ _ _ HI Hk Hp) as ->. rewrite !bool_decide_true by done. done.
  - assert (k <> p). { intros ->. apply Hne. apply (Hn m t' p); [left|]. by eapply map_left. } rewrite (bool_decide_false (k = p)) by done. done.
Qed.
Lemma calls_crash s t p l m t' k : Inv s -> (name t, p) ∈ t_map s -> (forall x, x ∈ l -> x ∈ t_hs s) -> (m, t', k) ∈ l -> name t' = name t -> t' <> t -> calls s t p l = Crash.
Proof.
  intros HI Hp Hl Hin Hn Hne. induction l as [|[[m0 t0] k0] l IH]; [by apply elem_of_nil in Hin|]. cbn.
  assert (Hh : (m0, t0, k0) ∈ t_hs s) by (apply Hl; left). pose proof (i_hs _ HI _ _ _ Hh) as Hv. pose proof (i_vars _ HI _ _ _ Hv) as Hk. unfold var. rewrite Hv. cbn.
  apply elem_of_cons in Hin as [[= <- <- <-]|Hin].
  - rewrite Hn in Hk. pose proof (map_right _ _ _ _ HI Hk Hp) as ->. rewrite bool_decide_true by done. cbn. rewrite bool_decide_false by done. done.
  - rewrite IH by (try done; intros x Hx; apply Hl; by right). cbn. by repeat case_bool_decide.
Qed.

(** Steps. *)
Lemma step_inv s o s' e : Inv s -> careful s o -> step name s o = Ok (s', e) -> Inv s'.
Proof.
  intros HI (Hs & Ha & Hf). destruct o as [m l|m t|m t|m t|k|m]; cbn in *.
  - intros [= <- <-]. destruct Hs as (H1 & H2 & H3 & H4). by apply load_inv.
  - destruct Hs as [[p Hp] Hv]. rewrite Hp. destruct (i_names _ HI _ _ _ Hp) as [Hm H0].
    destruct (register_ok s _ _ _ HI Hm) as (l & q & E & Hq & Hsub & Hsup & Hnd). rewrite E. cbn. intros [= <- <-]. split; cbn.
    + intros n p' [Hx|[= -> ->]]%Hsup; [by apply (i_map _ HI)|]. eauto.
    + done.
    + apply (i_names _ HI).
    + intros m' t' q'. destruct (decide ((m, t) = (m', t'))) as [[= <- <-]|Hne]; [rewrite lookup_insert; by intros [= <-]|]. rewrite lookup_insert_ne by done. intros Hx. apply Hsub. by eapply i_vars.
    + intros t' p' Hx. apply Hsub. by eapply i_msgs.
    + intros m' t' k Hx. pose proof (i_hs _ HI _ _ _ Hx) as Hy. rewrite lookup_insert_ne; [done|]. intros [= -> ->]. congruence.
  - intros [= <- <-]. destruct Ha as [q Hq]. destruct HI. split; cbn; try done. intros t' p' [Hx|Hx%elem_of_list_singleton]%elem_of_app; [by auto|]. injection Hx as -> ->. unfold var. rewrite Hq. cbn. by eauto.
  - intros [= <- <-]. destruct Ha as [q Hq]. destruct HI. split; cbn; try done. intros m' t' p' [Hx|Hx%elem_of_list_singleton]%elem_of_app; [by auto|]. injection Hx as -> -> ->. unfold var. rewrite Hq. done.
  - destruct (t_msgs s !! k) as [[t p]|]; [|done]. destruct (calls s t p (t_hs s)); try done. cbn. by intros [= <- <-].
  - intros [= <- <-]. split; cbn.
    + intros n p Hx. destruct (i_map _ HI _ _ Hx) as (m' & E & H0). exists m'. split; [|done]. apply map_filter_lookup_Some. split; [done|]. cbn. by apply (Hf n p (m', n)).
    + apply (i_nodup _ HI).
    + intros m' t' p [Hx Hy]%map_filter_lookup_Some. cbn in Hy. destruct (i_names _ HI _ _ _ Hx) as [E H0]. split; [|done]. apply map_filter_lookup_Some. done.
    + intros m' t' q [Hx _]%map_filter_lookup_Some. by eapply i_vars.
    + apply (i_msgs _ HI).
    + intros m' t' k Hx. apply map_filter_lookup_Some. split; [by apply (i_hs _ HI)|]. cbn. by eapply Hs.
Qed.
Lemma step_fails s o : Inv s -> careful s o -> (forall k, o <> ODeliver k) -> exists s' e, step name s o = Ok (s', e).
Proof.
  intros HI (Hs & Ha & Hf) Hk. destruct o as [m l|m t|m t|m t|k|m]; cbn in *; try (by eauto).
  - destruct Hs as [[p Hp] Hv]. rewrite Hp. destruct (i_names _ HI _ _ _ Hp) as [Hm H0]. destruct (register_ok s _ _ _ HI Hm) as (l & q & E & _). rewrite E. cbn. eauto.
  - by destruct (Hk k).
Qed.
Lemma deliver_ok s k t p : Inv s -> t_msgs s !! k = Some (t, p) -> (forall m t' key, (m, t', key) ∈ t_hs s -> name t' = name t -> t' = t) -> step name s (ODeliver k) = Ok (s, wanted s t).
Proof. intros HI Hk Hn. cbn. rewrite Hk. rewrite calls_ok; [done|done|apply (i_msgs _ HI); by eapply elem_of_list_lookup_2|done|done]. Qed.
Lemma deliver_crash s k t p m t' key : Inv s -> t_msgs s !! k = Some (t, p) -> (m, t', key) ∈ t_hs s -> name t' = name t -> t' <> t -> step name s (ODeliver k) = Crash.
Proof. intros HI Hk Hn Hnn Hne. cbn. rewrite Hk. rewrite (calls_crash s t p (t_hs s) m t' key); [done|done|apply (i_msgs _ HI); by eapply elem_of_list_lookup_2|done|done|done|done]. Qed.
Lemma reach_from ops s0 s e : Inv s0 -> guarded (step name) careful s0 ops -> run (step name) s0 ops = Ok (s, e) -> Inv s.
Proof.
  revert s0 e. induction ops as [|o ops IH]; intros s0 e HI; cbn; [by intros _ [= <- <-]|]. intros [Ho Hg]. destruct (step name s0 o) as [[s1 e1]| |] eqn:E; try done. cbn.
  destruct (run (step name) s1 ops) as [[s2 e2]| |] eqn:E2; try done. cbn. intros [= <- <-]. eapply IH; [|done|done]. by eapply step_inv.
Qed.
Lemma reach ops s e : guarded (step name) careful tinit ops -> run (step name) tinit ops = Ok (s, e) -> Inv s.
Proof. apply reach_from. apply Inv_init. Qed.
Lemma safe_from ops s0 : (forall t t', name t = name t' -> t = t') -> Inv s0 -> guarded (step name) careful s0 ops -> exists s e, run (step name) s0 ops = Ok (s, e).
Proof.
  intros Hinj. revert s0. induction ops as [|o ops IH]; intros s0 HI; cbn; [eauto|]. intros [Ho Hg].
  assert (Hok : exists s1 e1, step name s0 o = Ok (s1, e1)).
  { assert (Hd : (exists k, o = ODeliver k) \/ forall k, o <> ODeliver k) by (destruct o; try (by right); left; eauto).
    destruct Hd as [[k ->]|Hd]; [|by apply step_fails]. destruct Ho as (Hk & _ & _). cbn in Hk. destruct (lookup_lt_is_Some_2 _ _ Hk) as [[t p] Hl]. do 2 eexists. eapply deliver_ok; [done|done|]. intros ? ? ? _ Hx. by apply Hinj. }
  destruct Hok as (s1 & e1 & E). rewrite E in *. cbn. destruct (IH s1) as (s2 & e2 & ->); [by eapply step_inv|done|]. cbn. eauto.
Qed.
Lemma agree s m t m' t' q q' : Inv s -> t_vars s !! (m, t) = Some q -> t_vars s !! (m', t') = Some q' -> q <> 0 /\ (q = q' <-> name t = name t').
Proof.
  intros HI H1 H2. pose proof (i_vars _ HI _ _ _ H1) as G1. pose proof (i_vars _ HI _ _ _ H2) as G2. split; [by destruct (i_map _ HI _ _ G1) as (? & _ & ?)|]. split.
  - intros <-. by eapply map_left.
  - intros E. rewrite <- E in G2. by eapply map_right.
Qed.
End types.

(** Checking the conditions on given runs. *)
Definition saneb (s : tstate) (o : top) : bool :=
  match o with
  | OLoad m l => forallb (fun x => negb (bool_decide (x.1.1 = m))) (map_to_list (t_names s)) && bool_decide (NoDup l.*1) && bool_decide (NoDup l.*2) &&
      forallb (fun x => negb (bool_decide (x.2 = 0)) && bool_decide (t_mem s !! x.2 = None)) l
  | OInit m t => bool_decide (is_Some (t_names s !! (m, t))) && bool_decide (t_vars s !! (m, t) = None)
  | OMake m t | OSub m t => bool_decide (is_Some (t_names s !! (m, t)))
  | ODeliver k => bool_decide (k < length (t_msgs s))%nat
  | OUnload m => forallb (fun x => negb (bool_decide (x.1.1 = m))) (t_hs s)
  end.
Definition after_initb (s : tstate) (o : top) : bool :=
  match o with OMake m t | OSub m t => bool_decide (is_Some (t_vars s !! (m, t))) | _ => true end.
Definition not_firstb (s : tstate) (o : top) : bool :=
  match o with OUnload m => forallb (fun x => match t_mem s !! x.2 with Some y => negb (bool_decide (y.1 = m)) | None => true end) (t_map s) | _ => true end.
Definition carefulb (s : tstate) (o : top) : bool := saneb s o && after_initb s o && not_firstb s o.
Lemma saneb_sound s o : saneb s o = true -> sane s o.
Proof.
  destruct o as [m l|m t|m t|m t|k|m]; cbn; rewrite ?andb_true_iff, ?bool_decide_eq_true; try done.
  - intros [[[H1 H2] H3] H4]. split; [|split; [done|split; [done|]]].
    + intros t. destruct (t_names s !! (m, t)) as [p|] eqn:E; [|done]. exfalso. apply elem_of_map_to_list in E. rewrite forallb_forall in H1. apply elem_of_list_In in E. specialize (H1 _ E). cbn in H1. by rewrite bool_decide_true in H1.
    + intros t p Hx. rewrite forallb_forall in H4. apply elem_of_list_In in Hx. specialize (H4 _ Hx). cbn in H4. rewrite andb_true_iff, negb_true_iff, bool_decide_eq_false, bool_decide_eq_true in H4. done.
  - intros H1 m' t key Hx ->. rewrite forallb_forall in H1. apply elem_of_list_In in Hx. specialize (H1 _ Hx). cbn in H1. by rewrite bool_decide_true in H1.
Qed.
Lemma after_initb_sound s o : after_initb s o = true -> after_init s o.
Proof. destruct o; cbn; rewrite ?bool_decide_eq_true; done. Qed.
Lemma not_firstb_sound s o : not_firstb s o = true -> not_first s o.
Proof.
  destruct o as [| | | | |m]; cbn; try done. intros H n p x Hx Hm <-. rewrite forallb_forall in H. apply elem_of_list_In in Hx. specialize (H _ Hx). cbn in H. rewrite Hm, bool_decide_true in H by done. done.
Qed.
Lemma carefulb_sound s o : carefulb s o = true -> careful s o.
Proof. unfold carefulb. rewrite !andb_true_iff. intros [[? ?] ?]. split; [by apply saneb_sound|]. split; [by apply after_initb_sound|by apply not_firstb_sound]. Qed.
