(** Proofs about requests, timers and reply addresses. *)
From stdpp Require Import base list gmap.
From Verif Require Import Base RequestsModel RequestsSpec.

(** ** The armed list *)
Lemma find_armed_in l id o : NoDup (l.*1) -> (id, o) ∈ l -> find_armed l id = Some o.
Proof.
  induction l as [|[i p] l IH]; csimpl; intros Hn Hi; [by apply elem_of_nil in Hi|].
  apply NoDup_cons in Hn as [Hn1 Hn2]. apply elem_of_cons in Hi as [Hi|Hi].
  - inversion Hi; subst. by rewrite N.eqb_refl.
  - destruct (N.eqb_spec i id) as [->|]; [|auto].
    exfalso. apply Hn1. apply elem_of_list_fmap. by exists (id, o).
Qed.

Lemma erase_armed_in l id o i p : NoDup (l.*1) -> (id, o) ∈ l ->
  (i, p) ∈ erase_armed l id o <-> (i, p) ∈ l /\ i <> id.
Proof.
  induction l as [|[j q] l IH]; csimpl; intros Hn Hi; [by apply elem_of_nil in Hi|].
  apply NoDup_cons in Hn as [Hn1 Hn2]. apply elem_of_cons in Hi as [Hi|Hi].
  - inversion Hi; subst. rewrite !N.eqb_refl. simpl. rewrite elem_of_cons. split.
    + intros Hx. split; [by right|]. intros ->. apply Hn1. apply elem_of_list_fmap. by exists (j, p).
    + intros [[Hx|Hx] Hne]; [by inversion Hx|done].
  - destruct (N.eqb_spec j id) as [->|Hne]; simpl.
    + exfalso. apply Hn1. apply elem_of_list_fmap. by exists (id, o).
    + rewrite !elem_of_cons, IH by done. split.
      * intros [Hx|[Hx Hy]]; [inversion Hx; subst; by split; [left|]|by split; [right|]].
      * intros [[Hx|Hx] Hy]; [by left|by right].
Qed.

Lemma erase_armed_sub l id o x : x ∈ erase_armed l id o -> x ∈ l.
Proof.
  induction l as [|[j q] l IH]; simpl; [done|].
  destruct (N.eqb j id && N.eqb q o); intros H; [by right|].
  apply elem_of_cons in H as [->|H]; [by left|right; auto].
Qed.

Lemma erase_armed_nodup l id o : NoDup (l.*1) -> NoDup ((erase_armed l id o).*1).
Proof.
  induction l as [|[j q] l IH]; csimpl; intros Hn; [constructor|].
  apply NoDup_cons in Hn as [Hn1 Hn2]. destruct (N.eqb j id && N.eqb q o); [done|].
  csimpl. constructor; [|auto]. intros Hx. apply Hn1.
  apply elem_of_list_fmap in Hx as (y & -> & Hy). apply elem_of_list_fmap. exists y.
  split; [done|]. by eapply erase_armed_sub.
Qed.

Lemma outcomes_app u a b : outcomes u (a ++ b) = outcomes u a ++ outcomes u b.
Proof. unfold outcomes. induction a as [|x a IH]; simpl; [done|]. destruct (is_outcome u x); simpl; by rewrite IH. Qed.

Section P.
  Variable asup : N -> N.
  Variable leader : N.
  Notation rstep := (rstep asup leader).

  Record rinv (st : rstate) (n : N) : Prop := RInv {
    i_last : r_last st = n;
    i_at : forall id o, (id, o) ∈ r_armed st <-> is_Some (r_timers st !! (o, id));
    i_nd : NoDup ((r_armed st).*1);
    i_tm : forall s id, r_timers st !! (s, id) = Some TReq <-> is_Some (r_map st !! (s, id));
    i_map : forall s id c, r_map st !! (s, id) = Some c ->
      asup (q_source c) = s /\ (q_source c, id) ∈ r_active st /\
      exists imag ty, r_sent st !! q_uid c = Some (RMsg id s imag (q_origin c) (q_source c) ty);
    i_act : forall a id, (a, id) ∈ r_active st ->
      exists c, r_map st !! (asup a, id) = Some c /\ q_source c = a;
    i_le : forall id o, (id, o) ∈ r_armed st -> (id <= n)%N;
    i_blt : forall id b, r_built st !! id = Some b -> (id <= n)%N /\ (forall o, (id, o) ∉ r_armed st) /\
      (forall u rm, r_sent st !! u = Some rm -> rm_id rm <> id);
    i_sent : forall u rm, r_sent st !! u = Some rm -> (u < r_uid st)%N /\ (rm_id rm <= n)%N;
    i_inj : forall u1 u2 r1 r2, r_sent st !! u1 = Some r1 -> r_sent st !! u2 = Some r2 ->
      rm_id r1 = rm_id r2 -> u1 = u2;
    i_fin : forall a, a ∈ r_fin st ->
      (forall id, r_timers st !! (a, id) = None) /\ (forall id, (a, id) ∉ r_active st)
  }.

  Lemma rinv_init : rinv rinit 0.
  Proof.
    split; simpl; try done.
    - intros id o. rewrite lookup_empty. split; [by intros H%elem_of_nil|by intros [? ?]].
    - constructor.
    - intros s id. rewrite !lookup_empty. split; [done|by intros [? ?]].
    - intros id o H. by apply elem_of_nil in H.
  Qed.

  (** ** A timer goes away *)
  Definition drop (st : rstate) (o id : N) : rstate :=
    RState (r_last st) (delete (o, id) (r_map st))
      (match r_map st !! (o, id) with Some c => r_active st ∖ {[(q_source c, id)]} | None => r_active st end)
      (delete (o, id) (r_timers st)) (erase_armed (r_armed st) id o)
      (r_built st) (r_sent st) (r_amap st) (r_subs st) (r_naddr st) (r_uid st) (r_fin st).
  Definition drop_ev (st : rstate) (o id : N) (cancelled : bool) : list revent :=
    match r_map st !! (o, id) with
    | Some c => if cancelled then [ECancel (q_uid c)] else [ETimeout (q_uid c) (q_origin c) (q_source c)]
    | None => [EUser o id cancelled]
    end.

  Lemma trigger_spec st n o id cancelled : rinv st n -> (id, o) ∈ r_armed st ->
    rbind (on_timer_trigger st o id cancelled) (fun '(st', e) =>
      Ok (set_armed st' (erase_armed (r_armed st') id o), e)) = Ok (drop st o id, drop_ev st o id cancelled).
  Proof.
    intros HI Ha. apply (i_at _ _ HI) in Ha as [k Hk]. unfold on_timer_trigger. rewrite Hk.
    destruct k; simpl.
    - assert (r_map st !! (o, id) = None) as Hm.
      { destruct (r_map st !! (o, id)) eqn:E; [|done]. exfalso.
        assert (r_timers st !! (o, id) = Some TReq) by (apply (i_tm _ _ HI); by eexists). congruence. }
      unfold drop, drop_ev. rewrite Hm, (delete_notin (r_map st)) by done. done.
    - apply (i_tm _ _ HI) in Hk as [c Hc]. unfold on_request_trigger, drop, drop_ev. rewrite Hc.
      destruct (i_map _ _ HI _ _ _ Hc) as (_ & Hact & _).
      rewrite decide_True by done. simpl. done.
  Qed.

  Lemma fire_spec st n id o : rinv st n -> (id, o) ∈ r_armed st ->
    fire st id o = Ok (drop st o id, drop_ev st o id false).
  Proof. intros HI Ha. unfold fire. rewrite decide_True by done. by eapply trigger_spec. Qed.

  Lemma do_cancel_spec st n id o : rinv st n -> (id, o) ∈ r_armed st ->
    do_cancel_timer st id = Ok (drop st o id, drop_ev st o id true).
  Proof.
    intros HI Ha. unfold do_cancel_timer. rewrite (find_armed_in _ _ o) by (done || apply HI).
    by eapply trigger_spec.
  Qed.

  Lemma cancel_spec st n id o : rinv st n -> is_Some (r_timers st !! (o, id)) ->
    cancel_timer st o id = Ok (drop st o id, drop_ev st o id true).
  Proof.
    intros HI [k Hk]. unfold cancel_timer. rewrite Hk. eapply do_cancel_spec; [done|].
    apply (i_at _ _ HI). by eexists.
  Qed.

  (** One id has one owner. *)
  Lemma owner_unique st n id o1 o2 : rinv st n -> (id, o1) ∈ r_armed st -> (id, o2) ∈ r_armed st -> o1 = o2.
  Proof.
    intros HI H1 H2. assert (find_armed (r_armed st) id = Some o1) as E1 by (apply find_armed_in; [apply HI|done]).
    assert (find_armed (r_armed st) id = Some o2) as E2 by (apply find_armed_in; [apply HI|done]). congruence.
  Qed.

  Lemma map_armed st n s id : rinv st n -> is_Some (r_map st !! (s, id)) -> (id, s) ∈ r_armed st.
  Proof. intros HI H. apply (i_at _ _ HI). apply (i_tm _ _ HI) in H. by eexists. Qed.

  Lemma rinv_drop st n o id : rinv st n -> (id, o) ∈ r_armed st -> rinv (drop st o id) n.
  Proof.
    intros HI Ha.
    assert (Hact : forall x, x ∈ r_active (drop st o id) <-> x ∈ r_active st /\ (x.2 = id -> asup x.1 <> o)).
    { intros [a i]. simpl. destruct (r_map st !! (o, id)) as [c|] eqn:Ec.
      - rewrite elem_of_difference, elem_of_singleton. split.
        + intros [Hx Hne]. split; [done|]. intros -> <-.
          apply (i_act _ _ HI) in Hx as (c' & Hc' & Hs). rewrite Ec in Hc'. inversion Hc'; subst c'. subst a. done.
        + intros [Hx Hne]. split; [done|]. intros H. inversion H; subst. apply Hne; [done|].
          by apply (i_map _ _ HI _ _ _ Ec).
      - split; [|tauto]. intros Hx. split; [done|]. intros -> <-.
        apply (i_act _ _ HI) in Hx as (c' & Hc' & _). congruence. }
    split.
    - apply (i_last _ _ HI).
    - intros i p. simpl. rewrite erase_armed_in by (done || apply HI).
      rewrite (i_at _ _ HI). destruct (decide (i = id)) as [->|Hne].
      + split; [tauto|]. intros [k Hk]. exfalso. destruct (decide (p = o)) as [->|Hpo].
        * by rewrite lookup_delete in Hk.
        * rewrite lookup_delete_ne in Hk by congruence. apply Hpo.
          eapply (owner_unique st n id); [done|by apply (i_at _ _ HI); eexists|done].
      + rewrite lookup_delete_ne by congruence. tauto.
    - simpl. apply erase_armed_nodup, HI.
    - intros s i. simpl. destruct (decide ((s, i) = (o, id))) as [E|E].
      + inversion E; subst. rewrite !lookup_delete. split; [done|by intros [? ?]].
      + rewrite !lookup_delete_ne by congruence. apply (i_tm _ _ HI).
    - intros s i c Hc. simpl in Hc. destruct (decide ((o, id) = (s, i))) as [E|E];
        [inversion E; subst; by rewrite lookup_delete in Hc|].
      rewrite lookup_delete_ne in Hc by done. destruct (i_map _ _ HI _ _ _ Hc) as (H1 & H2 & H3).
      split; [done|]. split; [|done]. apply Hact. split; [done|]. simpl. intros -> Heq. apply E. congruence.
    - intros a i Hx. apply Hact in Hx as [Hx Hne]. simpl in Hne.
      apply (i_act _ _ HI) in Hx as (c & Hc & Hs). exists c. split; [|done]. simpl.
      rewrite lookup_delete_ne; [done|]. intros E. inversion E. by apply Hne.
    - intros i p Hi. simpl in Hi. apply erase_armed_sub in Hi. by apply (i_le _ _ HI) in Hi.
    - intros i b Hb. simpl in Hb. destruct (i_blt _ _ HI _ _ Hb) as (H1 & H2 & H3). split; [done|]. split; [|done].
      intros p Hp. simpl in Hp. apply erase_armed_sub in Hp. by apply H2 in Hp.
    - intros u rm. simpl. apply (i_sent _ _ HI).
    - intros u1 u2 r1 r2. simpl. apply (i_inj _ _ HI).
    - intros a Hf. simpl in Hf. destruct (i_fin _ _ HI _ Hf) as [H1 H2]. split.
      + intros i. simpl. destruct (decide ((o, id) = (a, i))) as [E|E]; [rewrite E; apply lookup_delete|].
        by rewrite lookup_delete_ne.
      + intros i Hx. apply Hact in Hx as [Hx _]. by apply H2 in Hx.
  Qed.

  (** ** New identifiers *)
  Lemma next_id_spec st n : rinv st n -> (n + 1 < W64)%N -> next_id leader st = Some (n + 1)%N.
  Proof.
    intros HI Hn. unfold next_id. cbn [next_id_from]. rewrite (i_last _ _ HI), N.mod_small by done.
    destruct (r_map st !! (leader, (n + 1)%N)) eqn:E; [|done]. exfalso.
    assert (((n + 1)%N, leader) ∈ r_armed st) as H by (eapply map_armed; [done|by eexists]).
    apply (i_le _ _ HI) in H. lia.
  Qed.

  Lemma fresh_armed st n o : rinv st n -> ((n + 1)%N, o) ∉ r_armed st.
  Proof. intros HI H. apply (i_le _ _ HI) in H. lia. Qed.

  Lemma rinv_set_last st n : rinv st n -> rinv (set_last st (n + 1)%N) (n + 1)%N.
  Proof.
    intros HI. destruct HI. split; simpl; auto.
    - intros id o H. apply i_le0 in H. lia.
    - intros id b H. apply i_blt0 in H as (? & ? & ?). split; [lia|done].
    - intros u rm H. apply i_sent0 in H as (? & ?). split; [done|lia].
  Qed.

  Lemma rinv_built st n id b na : rinv st n -> (id <= n)%N -> (forall o, (id, o) ∉ r_armed st) ->
    (forall u rm, r_sent st !! u = Some rm -> rm_id rm <> id) ->
    rinv (RState (r_last st) (r_map st) (r_active st) (r_timers st) (r_armed st) (<[id := b]> (r_built st))
            (r_sent st) (r_amap st) (r_subs st) na (r_uid st) (r_fin st)) n.
  Proof.
    intros HI H1 H2 H3. destruct HI. split; simpl; auto.
    intros i b' Hb. destruct (decide (id = i)) as [<-|Hne]; [done|]. rewrite lookup_insert_ne in Hb by done. eauto.
  Qed.

  Lemma rinv_amap st n am su : rinv st n ->
    rinv (RState (r_last st) (r_map st) (r_active st) (r_timers st) (r_armed st) (r_built st)
            (r_sent st) am su (r_naddr st) (r_uid st) (r_fin st)) n.
  Proof. intros HI. destruct HI. by split. Qed.

  Lemma build_spec st n a origin ty : rinv st n -> (n + 1 < W64)%N ->
    exists st', build leader st a origin ty = Ok (st', []) /\ rinv st' (n + 1)%N /\
      r_map st' = r_map st /\ r_sent st' = r_sent st /\ r_uid st' = r_uid st /\
      r_timers st' = r_timers st /\ r_active st' = r_active st /\ r_fin st' = r_fin st.
  Proof.
    intros HI Hn. unfold build. rewrite (next_id_spec _ n) by done.
    assert (HI1 := rinv_set_last _ _ HI).
    assert (HF : forall b na, rinv (RState (r_last (set_last st (n+1)%N)) (r_map st) (r_active st) (r_timers st) (r_armed st)
              (<[(n+1)%N := b]> (r_built st)) (r_sent st) (r_amap st) (r_subs st) na (r_uid st) (r_fin st)) (n + 1)%N).
    { intros b na. apply (rinv_built _ _ (n+1)%N b na HI1); [lia| |].
      - intros o. simpl. by apply (fresh_armed st n).
      - intros u rm H. simpl in H. apply (i_sent _ _ HI) in H as (_ & H). lia. }
    destruct (r_amap st !! (a, ty)) as [imag|]; eexists; (split; [done|]); simpl; auto 10.
  Qed.

  Lemma rinv_start st n a id : rinv st n -> (id <= n)%N -> (forall o, (id, o) ∉ r_armed st) ->
    (forall b, r_built st !! id <> Some b) -> a ∉ r_fin st ->
    exists st', start_timer st a id TUser = Ok st' /\ rinv st' n /\
      r_map st' = r_map st /\ r_sent st' = r_sent st /\ r_uid st' = r_uid st /\
      r_timers st' = <[(a, id) := TUser]> (r_timers st) /\ r_active st' = r_active st /\ r_fin st' = r_fin st.
  Proof.
    intros HI Hle Hna Hnb Hf. unfold start_timer.
    assert (Ht : forall o, r_timers st !! (o, id) = None).
    { intros o. destruct (r_timers st !! (o, id)) eqn:E; [|done]. exfalso. apply (Hna o).
      apply (i_at _ _ HI). by eexists. }
    rewrite Ht. eexists. split; [done|]. split; [|done]. split; simpl.
    - apply HI.
    - intros i o. rewrite elem_of_app, elem_of_list_singleton, (i_at _ _ HI).
      destruct (decide ((a, id) = (o, i))) as [E|E].
      + inversion E; subst. rewrite lookup_insert. split; [by eexists|by right].
      + rewrite lookup_insert_ne by done. split; [intros [?|Hx]; [done|]|by left]. inversion Hx; subst. done.
    - rewrite fmap_app. apply NoDup_app. split; [apply HI|]. split; [|simpl; apply NoDup_singleton].
      intros x Hx Hy. simpl in Hy. apply elem_of_list_singleton in Hy as ->.
      apply elem_of_list_fmap in Hx as ([i o] & -> & Hx). by apply Hna in Hx.
    - intros s i. destruct (decide ((a, id) = (s, i))) as [E|E].
      + inversion E; subst. rewrite lookup_insert. split; [done|]. intros H.
        apply (i_tm _ _ HI) in H. rewrite Ht in H. done.
      + rewrite lookup_insert_ne by done. apply (i_tm _ _ HI).
    - apply (i_map _ _ HI).
    - apply (i_act _ _ HI).
    - intros i o Hx. apply elem_of_app in Hx as [Hx|Hx]; [by apply (i_le _ _ HI) in Hx|].
      apply elem_of_list_singleton in Hx. by inversion Hx; subst.
    - intros i b Hb. destruct (i_blt _ _ HI _ _ Hb) as (H1 & H2 & H3). split; [done|]. split; [|done].
      intros o Hx. apply elem_of_app in Hx as [Hx|Hx]; [by apply H2 in Hx|].
      apply elem_of_list_singleton in Hx. inversion Hx; subst. by apply Hnb in Hb.
    - apply (i_sent _ _ HI).
    - apply (i_inj _ _ HI).
    - intros x Hx. destruct (i_fin _ _ HI _ Hx) as [H1 H2]. split; [|done].
      intros i. rewrite lookup_insert_ne; [done|]. intros E. inversion E; subst. done.
  Qed.

  Lemma start_spec st n a : rinv st n -> (n + 1 < W64)%N -> a ∉ r_fin st ->
    exists st', rstep st (OStart a) = Ok (st', []) /\ rinv st' (n + 1)%N /\
      r_map st' = r_map st /\ r_sent st' = r_sent st /\ r_uid st' = r_uid st /\
      r_timers st' = <[(a, (n+1)%N) := TUser]> (r_timers st) /\ r_active st' = r_active st /\ r_fin st' = r_fin st.
  Proof.
    intros HI Hn Hf. simpl. rewrite (next_id_spec _ n) by done.
    destruct (rinv_start (set_last st (n+1)%N) (n+1)%N a (n+1)%N) as (st' & -> & H).
    - by apply rinv_set_last.
    - lia.
    - intros o. simpl. by apply (fresh_armed st n).
    - simpl. intros b Hb. apply (i_blt _ _ HI) in Hb as (Hb & _). lia.
    - done.
    - simpl. eexists. split; [done|]. apply H.
  Qed.

  (** ** Sending *)
  Lemma send_spec st n id b : rinv st n -> r_built st !! id = Some b -> alive asup st (b_actor b) ->
    exists st', send asup st id = Ok (st', [EReq (r_uid st)]) /\ rinv st' n /\
      r_map st' = <[(asup (b_actor b), id) := Curry (b_origin b) (r_uid st) (b_actor b)]> (r_map st) /\
      r_sent st' = <[r_uid st := RMsg id (asup (b_actor b)) (b_imag b) (b_origin b) (b_actor b) (b_type b)]> (r_sent st) /\
      r_map st !! (asup (b_actor b), id) = None /\ r_sent st !! r_uid st = None /\
      r_timers st' = <[(asup (b_actor b), id) := TReq]> (r_timers st) /\
      r_active st' = {[(b_actor b, id)]} ∪ r_active st /\ r_fin st' = r_fin st /\ r_uid st' = N.succ (r_uid st).
  Proof.
    intros HI Hb [Hf1 Hf2]. unfold send. rewrite Hb. set (s := asup (b_actor b)) in *.
    set (st1 := if b_install b then install st b else st).
    assert (HI1 : rinv st1 n).
    { unfold st1. destruct (b_install b); [|done]. unfold install. by apply rinv_amap. }
    assert (E1 : r_built st1 = r_built st /\ r_uid st1 = r_uid st /\ r_map st1 = r_map st /\ r_sent st1 = r_sent st /\
      r_timers st1 = r_timers st /\ r_active st1 = r_active st /\ r_fin st1 = r_fin st)
      by (unfold st1; by destruct (b_install b)).
    destruct E1 as (Eb & Eu & Em & Es & Et & Ea & Ef).
    rewrite <- Eb in Hb. rewrite <- Eu, <- Em, <- Es, <- Et, <- Ea, <- Ef. rewrite <- Ef in Hf1, Hf2.
    clearbody st1. clear HI Eb Eu Em Es Et Ea Ef st.
    destruct (i_blt _ _ HI1 _ _ Hb) as (Hle & Hna & Hns).
    assert (Ht : forall o, r_timers st1 !! (o, id) = None).
    { intros o. destruct (r_timers st1 !! (o, id)) eqn:E; [|done]. exfalso. apply (Hna o).
      apply (i_at _ _ HI1). by eexists. }
    assert (Hm : forall o, r_map st1 !! (o, id) = None).
    { intros o. destruct (r_map st1 !! (o, id)) eqn:E; [|done]. exfalso. apply (Hna o).
      eapply map_armed; [done|by eexists]. }
    assert (Hu : r_sent st1 !! r_uid st1 = None).
    { destruct (r_sent st1 !! r_uid st1) eqn:E; [|done]. apply (i_sent _ _ HI1) in E as [E _]. lia. }
    rewrite Hm. unfold start_timer. simpl. rewrite Ht. simpl. eexists. split; [done|].
    split; [|done]. split; simpl.
    - apply HI1.
    - intros i o. rewrite elem_of_app, elem_of_list_singleton, (i_at _ _ HI1).
      destruct (decide ((s, id) = (o, i))) as [E|E].
      + inversion E; subst. rewrite lookup_insert. split; [by eexists|by right].
      + rewrite lookup_insert_ne by done. split; [intros [?|Hx]; [done|]|by left]. inversion Hx; subst. done.
    - rewrite fmap_app. apply NoDup_app. split; [apply HI1|]. split; [|simpl; apply NoDup_singleton].
      intros x Hx Hy. simpl in Hy. apply elem_of_list_singleton in Hy as ->.
      apply elem_of_list_fmap in Hx as ([i o] & -> & Hx). by apply Hna in Hx.
    - intros s' i. destruct (decide ((s, id) = (s', i))) as [E|E].
      + inversion E; subst. rewrite !lookup_insert. split; [by eexists|done].
      + rewrite !lookup_insert_ne by done. apply (i_tm _ _ HI1).
    - intros s' i c Hc. destruct (decide ((s, id) = (s', i))) as [E|E].
      + inversion E; subst. rewrite lookup_insert in Hc. inversion Hc; subst. simpl.
        split; [done|]. split; [apply elem_of_union_l; by apply elem_of_singleton|]. exists (b_imag b), (b_type b).
        by rewrite lookup_insert.
      + rewrite lookup_insert_ne in Hc by done. destruct (i_map _ _ HI1 _ _ _ Hc) as (H1 & H2 & imag & ty & H3).
        split; [done|]. split; [by apply elem_of_union_r|]. exists imag, ty.
        rewrite lookup_insert_ne; [done|]. intros E'. rewrite <- E' in H3. congruence.
    - intros a i Hx. apply elem_of_union in Hx as [Hx|Hx].
      + apply elem_of_singleton in Hx. inversion Hx; subst. eexists. split; [apply lookup_insert|done].
      + apply (i_act _ _ HI1) in Hx as (c & Hc & Hs). exists c. split; [|done].
        rewrite lookup_insert_ne; [done|]. intros E. inversion E; subst. by rewrite Hm in Hc.
    - intros i o Hx. apply elem_of_app in Hx as [Hx|Hx]; [by apply (i_le _ _ HI1) in Hx|].
      apply elem_of_list_singleton in Hx. by inversion Hx; subst.
    - intros i b' Hb'. destruct (decide (id = i)) as [<-|Hne]; [by rewrite lookup_delete in Hb'|].
      rewrite lookup_delete_ne in Hb' by done.
      destruct (i_blt _ _ HI1 _ _ Hb') as (H1 & H2 & H3). split; [done|]. split.
      + intros o Hx. apply elem_of_app in Hx as [Hx|Hx]; [by apply H2 in Hx|].
        apply elem_of_list_singleton in Hx. by inversion Hx; subst.
      + intros u rm Hrm. destruct (decide (r_uid st1 = u)) as [<-|Hu'].
        * rewrite lookup_insert in Hrm. by inversion Hrm; subst.
        * rewrite lookup_insert_ne in Hrm by done. by eapply H3.
    - intros u rm Hrm. destruct (decide (r_uid st1 = u)) as [<-|Hu'].
      + rewrite lookup_insert in Hrm. inversion Hrm; subst. simpl. split; [lia|done].
      + rewrite lookup_insert_ne in Hrm by done. apply (i_sent _ _ HI1) in Hrm as [? ?]. split; [lia|done].
    - intros u1 u2 r1 r2 H1 H2 He.
      destruct (decide (r_uid st1 = u1)) as [<-|N1], (decide (r_uid st1 = u2)) as [<-|N2]; try done.
      + rewrite lookup_insert in H1. inversion H1; subst. rewrite lookup_insert_ne in H2 by done.
        exfalso. by apply (Hns _ _ H2).
      + rewrite lookup_insert in H2. inversion H2; subst. rewrite lookup_insert_ne in H1 by done.
        exfalso. by apply (Hns _ _ H1).
      + rewrite lookup_insert_ne in H1, H2 by done. by eapply (i_inj _ _ HI1).
    - intros x Hx. destruct (i_fin _ _ HI1 _ Hx) as [H1 H2]. split.
      + intros i. rewrite lookup_insert_ne; [done|]. intros E. inversion E; subst. done.
      + intros i Hy. apply elem_of_union in Hy as [Hy|Hy]; [|by apply H2 in Hy].
        apply elem_of_singleton in Hy. inversion Hy; subst. done.
  Qed.

  (** ** Arrival of a response *)
  Lemma discard_spec st n s id c : rinv st n -> r_map st !! (s, id) = Some c ->
    discard_request st s id = Ok (drop st s id, [ECancel (q_uid c)]).
  Proof.
    intros HI Hc. unfold discard_request. rewrite Hc.
    rewrite (cancel_spec st n) by (done || (assert (r_timers st !! (s, id) = Some TReq) as ->
      by (apply (i_tm _ _ HI); by eexists); by eexists)).
    simpl. unfold drop_ev. rewrite Hc. unfold set_map. simpl. rewrite delete_idemp. done.
  Qed.

  Lemma uid_key st n s1 id1 c1 s2 id2 c2 : rinv st n ->
    r_map st !! (s1, id1) = Some c1 -> r_map st !! (s2, id2) = Some c2 -> q_uid c1 = q_uid c2 ->
    s1 = s2 /\ id1 = id2.
  Proof.
    intros HI H1 H2 He. apply (i_map _ _ HI) in H1 as (_ & _ & i1 & y1 & H1). apply (i_map _ _ HI) in H2 as (_ & _ & i2 & y2 & H2).
    rewrite He, H2 in H1. by inversion H1.
  Qed.

  (** What a response finds is the request it answers. *)
  Lemma reply_key st n u rm c : rinv st n -> r_sent st !! u = Some rm ->
    r_map st !! (rm_sup rm, rm_id rm) = Some c -> q_uid c = u.
  Proof.
    intros HI Hu Hc. apply (i_map _ _ HI) in Hc as (_ & _ & imag & ty & Hc). by eapply (i_inj _ _ HI).
  Qed.

  (** ** The trace *)
  Record tinv (st : rstate) (ev : list revent) : Prop := TInv {
    t_req : forall u, In (EReq u) ev <-> is_Some (r_sent st !! u);
    t_out : forall s id c, r_map st !! (s, id) = Some c ->
      outcomes (q_uid c) ev = [] /\ ~ In (ECancel (q_uid c)) ev;
    t_done : forall u, length (outcomes u ev) <= 1;
    t_lost : forall u, is_Some (r_sent st !! u) ->
      (exists s id c, outstanding st u s id c) \/ length (outcomes u ev) = 1 \/
      (outcomes u ev = [] /\ In (ECancel u) ev);
    t_sent : forall u, r_sent st !! u = None -> outcomes u ev = [] /\ ~ In (ECancel u) ev;
    t_resp : forall u r o a, In (EResp u r o a) ev -> r = u /\
      exists rm, r_sent st !! u = Some rm /\ rm_origin rm = o /\ rm_source rm = a;
    t_time : forall u o a, In (ETimeout u o a) ev ->
      exists rm, r_sent st !! u = Some rm /\ rm_origin rm = o /\ rm_source rm = a
  }.

  Lemma tinv_init : tinv rinit [].
  Proof.
    split; simpl; intros; try done.
    - rewrite lookup_empty. split; [done|by intros [? ?]].
    - lia.
    - destruct H as [? H]. by rewrite lookup_empty in H.
    - by split; [|intros []].
  Qed.

  Definition silent (e : revent) : Prop := match e with EUser _ _ _ => True | _ => False end.

  Lemma silent_outcomes u e : Forall silent e -> outcomes u e = [].
  Proof. induction 1 as [|x e Hx He IH]; [done|]. unfold outcomes in *. simpl. by destruct x. Qed.

  Lemma silent_in x e : Forall silent e -> In x e -> silent x.
  Proof. intros H Hi. rewrite Forall_forall in H. apply H. by apply elem_of_list_In. Qed.

  (** Nothing happens to the requests. *)
  Lemma tinv_silent st ev st' e : tinv st ev -> r_map st' = r_map st -> r_sent st' = r_sent st ->
    Forall silent e -> tinv st' (ev ++ e).
  Proof.
    intros HT Em Es He.
    assert (Ho : forall u, outcomes u (ev ++ e) = outcomes u ev)
      by (intros u; by rewrite outcomes_app, (silent_outcomes u e), app_nil_r).
    assert (Hi : forall x, ~ silent x -> (In x (ev ++ e) <-> In x ev)).
    { intros x Hx. rewrite in_app_iff. split; [|by left]. intros [?|H]; [done|].
      exfalso. by apply Hx, (silent_in x e). }
    destruct HT. split; intros; rewrite ?Em, ?Es, ?Ho, ?Hi in * by (simpl; tauto); eauto.
    - destruct (t_lost0 u H) as [(s & id & c & Hc)|Hx]; [left|by right].
      exists s, id, c. unfold outstanding in *. by rewrite Em.
  Qed.

  (** A request leaves the map with the events [e]. *)
  Lemma tinv_drop st n ev s id c e :
    rinv st n -> tinv st ev -> r_map st !! (s, id) = Some c ->
    (e = [ECancel (q_uid c)] \/ e = [ETimeout (q_uid c) (q_origin c) (q_source c)] \/
     e = [EResp (q_uid c) (q_uid c) (q_origin c) (q_source c); ECancel (q_uid c)]) ->
    tinv (drop st s id) (ev ++ e).
  Proof.
    intros HI HT Hc He.
    destruct (t_out _ _ HT _ _ _ Hc) as [Ho0 Hc0].
    destruct (i_map _ _ HI _ _ _ Hc) as (_ & _ & imag & ty & Hs).
    assert (Ho : forall u, u <> q_uid c -> outcomes u (ev ++ e) = outcomes u ev).
    { intros u Hu. rewrite outcomes_app. assert (outcomes u e = []) as ->; [|by rewrite app_nil_r].
      unfold outcomes. apply not_eq_sym, N.eqb_neq in Hu. destruct He as [->|[->| ->]]; simpl; by rewrite ?Hu. }
    assert (Hcan : forall u, u <> q_uid c -> In (ECancel u) (ev ++ e) <-> In (ECancel u) ev).
    { intros u Hu. rewrite in_app_iff. split; [|by left]. intros [?|H]; [done|]. exfalso.
      destruct He as [->|[->| ->]]; simpl in H;
        repeat match goal with H : _ \/ _ |- _ => destruct H as [H|H] end; try done; inversion H; congruence. }
    assert (Hlen : length (outcomes (q_uid c) (ev ++ e)) = 1 \/
      (outcomes (q_uid c) (ev ++ e) = [] /\ In (ECancel (q_uid c)) (ev ++ e))).
    { rewrite outcomes_app, Ho0. unfold outcomes.
      destruct He as [->|[->| ->]]; simpl; rewrite ?N.eqb_refl; auto.
      right. split; [done|]. apply in_or_app. right. by left. }
    split.
    - intros u. simpl. rewrite <- (t_req _ _ HT). rewrite in_app_iff. split; [|by left].
      intros [?|H]; [done|]. exfalso. destruct He as [->|[->| ->]]; simpl in H; intuition done.
    - intros s' id' c' Hc'. simpl in Hc'.
      destruct (decide ((s, id) = (s', id'))) as [E|E]; [inversion E; subst; by rewrite lookup_delete in Hc'|].
      rewrite lookup_delete_ne in Hc' by done.
      assert (q_uid c' <> q_uid c) as Hne.
      { intros Hu. apply E. by destruct (uid_key _ _ _ _ _ _ _ _ HI Hc Hc' (eq_sym Hu)) as [-> ->]. }
      rewrite Ho, Hcan by done. by apply (t_out _ _ HT _ _ _ Hc').
    - intros u. destruct (decide (u = q_uid c)) as [->|Hne].
      + destruct Hlen as [Hl|[Hl _]]; rewrite Hl; simpl; lia.
      + rewrite Ho by done. apply (t_done _ _ HT).
    - intros u Hu. simpl in Hu. destruct (decide (u = q_uid c)) as [->|Hne]; [by right|].
      rewrite Ho, Hcan by done. destruct (t_lost _ _ HT u Hu) as [(s' & id' & c' & Hc' & Hq)|Hx]; [left|by right].
      exists s', id', c'. split; [|done]. simpl. rewrite lookup_delete_ne; [done|].
      intros E. inversion E; subst. rewrite Hc in Hc'. by inversion Hc'; subst.
    - intros u Hu. simpl in Hu. assert (u <> q_uid c) as Hne by (intros ->; congruence).
      rewrite Ho, Hcan by done. by apply (t_sent _ _ HT).
    - intros u r o a Hin. simpl. apply in_app_or in Hin as [Hin|Hin]; [by eapply (t_resp _ _ HT)|].
      destruct He as [->|[->| ->]]; simpl in Hin; try (intuition done).
      destruct Hin as [Hin|[Hin|[]]]; [|done]. inversion Hin; subst. split; [done|]. by eexists.
    - intros u o a Hin. simpl. apply in_app_or in Hin as [Hin|Hin]; [by eapply (t_time _ _ HT)|].
      destruct He as [->|[->| ->]]; simpl in Hin; try (intuition done).
      destruct Hin as [Hin|[]]. inversion Hin; subst. by eexists.
  Qed.

  Lemma tinv_send st ev st' s id c rm :
    tinv st ev -> r_map st' = <[(s, id) := c]> (r_map st) -> r_map st !! (s, id) = None ->
    r_sent st' = <[q_uid c := rm]> (r_sent st) -> r_sent st !! q_uid c = None ->
    tinv st' (ev ++ [EReq (q_uid c)]).
  Proof.
    intros HT Em Hm Es Hs.
    assert (Ho : forall u, outcomes u (ev ++ [EReq (q_uid c)]) = outcomes u ev)
      by (intros u; rewrite outcomes_app; unfold outcomes; simpl; by rewrite app_nil_r).
    assert (Hi : forall x, x <> EReq (q_uid c) -> (In x (ev ++ [EReq (q_uid c)]) <-> In x ev)).
    { intros x Hx. rewrite in_app_iff. simpl. split; [|by left]. intros [?|[H|[]]]; [done|]. by subst. }
    split.
    - intros u. rewrite Es. destruct (decide (q_uid c = u)) as [<-|Hne].
      + rewrite lookup_insert. split; [by eexists|]. intros _. apply in_or_app. right. by left.
      + rewrite lookup_insert_ne, Hi by congruence. apply (t_req _ _ HT).
    - intros s' id' c' Hc'. rewrite Ho, Hi by done. rewrite Em in Hc'.
      destruct (decide ((s, id) = (s', id'))) as [E|E].
      + inversion E; subst. rewrite lookup_insert in Hc'. inversion Hc'; subst. by apply (t_sent _ _ HT).
      + rewrite lookup_insert_ne in Hc' by done. by eapply (t_out _ _ HT).
    - intros u. rewrite Ho. apply (t_done _ _ HT).
    - intros u Hu. rewrite Ho, Hi by done. destruct (decide (q_uid c = u)) as [<-|Hne].
      + left. exists s, id, c. split; [|done]. by rewrite Em, lookup_insert.
      + rewrite Es, lookup_insert_ne in Hu by done. destruct (t_lost _ _ HT u Hu) as [(s' & id' & c' & Hc' & Hq)|Hx]; [left|by right].
        exists s', id', c'. split; [|done]. rewrite Em, lookup_insert_ne; [done|]. intros E. inversion E; subst. congruence.
    - intros u Hu. rewrite Ho, Hi by done. rewrite Es in Hu.
      destruct (decide (q_uid c = u)) as [<-|Hne]; [by rewrite lookup_insert in Hu|].
      rewrite lookup_insert_ne in Hu by done. by apply (t_sent _ _ HT).
    - intros u r o a Hin. rewrite Hi in Hin by done. apply (t_resp _ _ HT) in Hin as (-> & rm' & H1 & H2).
      split; [done|]. exists rm'. split; [|done]. rewrite Es, lookup_insert_ne; [done|]. intros E. subst. congruence.
    - intros u o a Hin. rewrite Hi in Hin by done. apply (t_time _ _ HT) in Hin as (rm' & H1 & H2).
      exists rm'. split; [|done]. rewrite Es, lookup_insert_ne; [done|]. intros E. subst. congruence.
  Qed.

  Lemma tinv_drop_any st n ev o id cancelled : rinv st n -> tinv st ev ->
    tinv (drop st o id) (ev ++ drop_ev st o id cancelled).
  Proof.
    intros HI HT. unfold drop_ev. destruct (r_map st !! (o, id)) as [c|] eqn:Ec.
    - eapply tinv_drop; [done..|]. destruct cancelled; auto.
    - eapply tinv_silent; [done| |done|by repeat constructor]. simpl. by apply delete_notin.
  Qed.

  Lemma has_timers_false st a : has_timers st a = false -> forall id, r_timers st !! (a, id) = None.
  Proof.
    intros H id. destruct (r_timers st !! (a, id)) as [k|] eqn:E; [|done]. exfalso.
    apply elem_of_map_to_list, elem_of_list_In in E.
    assert (has_timers st a = true); [|congruence]. apply existsb_exists. eexists. split; [done|]. simpl. apply N.eqb_refl.
  Qed.
  Lemma has_active_false st a : has_active st a = false -> forall id, (a, id) ∉ r_active st.
  Proof.
    intros H id E. apply elem_of_elements, elem_of_list_In in E.
    assert (has_active st a = true); [|congruence]. apply existsb_exists. eexists. split; [done|]. simpl. apply N.eqb_refl.
  Qed.
  Lemma has_requests_true st a : has_requests st a = true -> exists id, is_Some (r_map st !! (a, id)).
  Proof.
    intros H. apply existsb_exists in H as ([[s id] c] & Hin & He). simpl in He. apply N.eqb_eq in He as ->.
    apply elem_of_list_In, elem_of_map_to_list in Hin. exists id. by eexists.
  Qed.

  (** ** Every step *)
  Lemma step_spec st n ev o : rinv st n -> tinv st ev -> rop_ok asup st o ->
    (n + (if is_alloc o then 1 else 0) < W64)%N ->
    exists st' e, rstep st o = Ok (st', e) /\ rinv st' (n + (if is_alloc o then 1 else 0))%N /\ tinv st' (ev ++ e).
  Proof.
    intros HI HT Hok Hn. destruct o as [a origin ty|id|u|id o|a|a id|a id|a ty]; simpl in Hn |- *;
      rewrite ?N.add_0_r in *.
    - destruct (build_spec st n a origin ty HI Hn) as (st' & -> & HI' & Em & Es & _).
      eexists _, _. split; [done|]. split; [done|]. by eapply tinv_silent.
    - simpl in Hok. destruct (r_built st !! id) as [b|] eqn:Eb.
      + destruct (send_spec st n id b HI Eb Hok) as (st' & -> & HI' & Em & Es & Hm & Hs & _).
        eexists _, _. split; [done|]. split; [done|].
        by apply (tinv_send st ev st' _ id (Curry (b_origin b) (r_uid st) (b_actor b)) _ HT Em Hm Es Hs).
      + unfold send. rewrite Eb. eexists _, _. split; [done|]. split; [done|]. by rewrite app_nil_r.
    - unfold arrive. destruct (r_sent st !! u) as [rm|] eqn:Eu.
      2:{ eexists _, _. split; [done|]. split; [done|]. by rewrite app_nil_r. }
      destruct (decide _).
      2:{ eexists _, _. split; [done|]. split; [done|]. by rewrite app_nil_r. }
      destruct (r_map st !! (rm_sup rm, rm_id rm)) as [c|] eqn:Ec.
      2:{ eexists _, _. split; [done|]. split; [done|]. by rewrite app_nil_r. }
      rewrite (discard_spec st n _ _ c) by done. simpl.
      rewrite (reply_key _ _ _ _ _ HI Eu Ec). eexists _, _. split; [done|].
      split; [eapply rinv_drop; [done|eapply map_armed; [done|by eexists]]|].
      eapply tinv_drop; [done..|]. rewrite (reply_key _ _ _ _ _ HI Eu Ec). auto.
    - unfold fire at 1. destruct (decide ((id, o) ∈ r_armed st)) as [Ha|Ha].
      + rewrite (trigger_spec st n) by done. eexists _, _. split; [done|].
        split; [by apply rinv_drop|]. by eapply tinv_drop_any.
      + eexists _, _. split; [done|]. split; [done|]. by rewrite app_nil_r.
    - destruct (start_spec st n a HI Hn (proj1 Hok)) as (st' & Hs & HI' & Em & Es & _). simpl in Hs. rewrite Hs.
      eexists _, _. split; [done|]. split; [done|]. by eapply tinv_silent.
    - rewrite (cancel_spec st n) by done. eexists _, _. split; [done|].
      split; [apply rinv_drop; [done|by apply (i_at _ _ HI)]|]. by eapply tinv_drop_any.
    - unfold finish. destruct (has_timers st a) eqn:Et.
      { destruct (r_timers st !! (a, id)) eqn:E.
        - rewrite (cancel_spec st n) by (done || by eexists). eexists _, _. split; [done|].
          split; [apply rinv_drop; [done|apply (i_at _ _ HI); by eexists]|]. by eapply tinv_drop_any.
        - eexists _, _. split; [done|]. split; [done|]. by rewrite app_nil_r. }
      destruct (has_active st a) eqn:Ea.
      { destruct (decide ((a, id) ∈ r_active st)) as [Hx|Hx].
        - apply (i_act _ _ HI) in Hx as (c & Hc & _).
          assert ((id, asup a) ∈ r_armed st) by (eapply map_armed; [done|by eexists]).
          rewrite (do_cancel_spec st n _ (asup a)) by done. eexists _, _. split; [done|].
          split; [by apply rinv_drop|]. by eapply tinv_drop_any.
        - eexists _, _. split; [done|]. split; [done|]. by rewrite app_nil_r. }
      destruct (has_requests st a) eqn:Er.
      { exfalso. apply has_requests_true in Er as [i Hi]. apply (i_tm _ _ HI) in Hi.
        by rewrite has_timers_false in Hi. }
      eexists _, _. split; [done|]. split; [|rewrite app_nil_r; by eapply (tinv_silent _ _ _ []) in HT; [rewrite app_nil_r in HT|..]].
      destruct HI. split; simpl; auto. intros x Hx. apply elem_of_union in Hx as [Hx|Hx]; [|auto].
      apply elem_of_singleton in Hx as ->. split; [by apply has_timers_false|by apply has_active_false].
    - unfold unmap. destruct (r_amap st !! (a, ty)).
      + eexists _, _. split; [done|]. split; [by apply rinv_amap|]. by eapply tinv_silent.
      + eexists _, _. split; [done|]. split; [done|]. by rewrite app_nil_r.
  Qed.

  Lemma run_spec ops : forall st n ev, rinv st n -> tinv st ev -> guarded rstep (rop_ok asup) st ops ->
    (n + allocs ops < W64)%N ->
    exists st' e, run rstep st ops = Ok (st', e) /\ rinv st' (n + allocs ops)%N /\ tinv st' (ev ++ e).
  Proof.
    induction ops as [|o ops IH]; intros st n ev HI HT Hg Hn.
    - exists st, []. rewrite app_nil_r. unfold allocs in *. simpl. rewrite N.add_0_r. done.
    - destruct Hg as [Hok Hg].
      assert (Ha : allocs (o :: ops) = ((if is_alloc o then 1 else 0) + allocs ops)%N).
      { unfold allocs. simpl. destruct (is_alloc o); simpl; lia. }
      rewrite Ha in *. destruct (step_spec st n ev o HI HT Hok) as (st1 & e1 & Hs & HI1 & HT1); [lia|].
      rewrite Hs in Hg. destruct (IH st1 _ _ HI1 HT1 Hg) as (st2 & e2 & Hr & HI2 & HT2); [lia|].
      exists st2, (e1 ++ e2). simpl. rewrite Hs. simpl. rewrite Hr. simpl. split; [done|].
      rewrite <- N.add_assoc in HI2. split; [done|]. by rewrite app_assoc.
  Qed.

  Lemma reach ops : guarded rstep (rop_ok asup) rinit ops -> (allocs ops < W64)%N ->
    exists st ev, run rstep rinit ops = Ok (st, ev) /\ rinv st (allocs ops) /\ tinv st ev.
  Proof.
    intros Hg Hn. destruct (run_spec ops rinit 0 [] rinv_init tinv_init Hg) as (st & e & H); [done|].
    by exists st, e.
  Qed.

  Lemma reach_inv ops st ev : guarded rstep (rop_ok asup) rinit ops -> (allocs ops < W64)%N ->
    run rstep rinit ops = Ok (st, ev) -> rinv st (allocs ops) /\ tinv st ev.
  Proof. intros Hg Hn Hr. destruct (reach ops Hg Hn) as (st' & ev' & Hr' & H). rewrite Hr in Hr'. by inversion Hr'; subst. Qed.

  (** ** Theorems *)
  Section Reached.
    Context (ops : list rop) (st : rstate) (ev : list revent).
    Hypothesis Hg : guarded rstep (rop_ok asup) rinit ops.
    Hypothesis Hn : (allocs ops < W64)%N.
    Hypothesis Hr : run rstep rinit ops = Ok (st, ev).

    Lemma at_most_one u : length (outcomes u ev) <= 1.
    Proof. apply (t_done _ _ (proj2 (reach_inv _ _ _ Hg Hn Hr))). Qed.

    Lemma late_dropped u : (forall s id c, ~ outstanding st u s id c) -> rstep st (OArrive u) = Ok (st, []).
    Proof.
      intros Ho. destruct (reach_inv _ _ _ Hg Hn Hr) as [HI HT]. simpl. unfold arrive.
      destruct (r_sent st !! u) as [rm|] eqn:Eu; [|done]. destruct (decide _); [|done].
      destruct (r_map st !! (rm_sup rm, rm_id rm)) as [c|] eqn:Ec; [|done].
      exfalso. eapply Ho. split; [done|]. by eapply reply_key.
    Qed.

    Lemma trichotomy u : In (EReq u) ev ->
      (exists s id c, outstanding st u s id c /\ (id, s) ∈ r_armed st /\ outcomes u ev = [] /\ ~ In (ECancel u) ev) \/
      ((forall s id c, ~ outstanding st u s id c) /\ length (outcomes u ev) = 1) \/
      ((forall s id c, ~ outstanding st u s id c) /\ outcomes u ev = [] /\ In (ECancel u) ev).
    Proof.
      intros Hu. destruct (reach_inv _ _ _ Hg Hn Hr) as [HI HT].
      assert (HO : forall s id c, outstanding st u s id c -> outcomes u ev = [] /\ ~ In (ECancel u) ev).
      { intros s id c [Hc <-]. by apply (t_out _ _ HT) in Hc. }
      apply (t_req _ _ HT) in Hu. destruct (t_lost _ _ HT u Hu) as [(s & id & c & Hc)|[H|[H1 H2]]].
      - left. exists s, id, c. split; [done|]. split; [|by eapply HO].
        eapply map_armed; [done|]. exists c. apply Hc.
      - right. left. split; [|done]. intros s id c Hc. apply HO in Hc as [Hc _]. by rewrite Hc in H.
      - right. right. split; [|done]. intros s id c Hc. apply HO in Hc as [_ Hc]. done.
    Qed.

    Lemma timeout_fires u s id c : outstanding st u s id c ->
      exists st' rm, rstep st (OFire id s) = Ok (st', [ETimeout u (rm_origin rm) (rm_source rm)]) /\
        r_sent st !! u = Some rm /\ rm_id rm = id /\ rm_sup rm = s /\
        (forall s' id' c', ~ outstanding st' u s' id' c').
    Proof.
      intros [Hc <-]. destruct (reach_inv _ _ _ Hg Hn Hr) as [HI HT]. simpl.
      assert (Ha : (id, s) ∈ r_armed st) by (eapply map_armed; [done|by eexists]).
      destruct (i_map _ _ HI _ _ _ Hc) as (_ & _ & imag & ty & Hs).
      rewrite (fire_spec st _ _ _ HI Ha). unfold drop_ev. rewrite Hc. eexists _, _. split; [|split; [done|]]; [done|].
      split; [done|]. split; [done|]. intros s' id' c' [Hc' Hq]. simpl in Hc'.
      destruct (decide ((s, id) = (s', id'))) as [E|E]; [inversion E; subst; by rewrite lookup_delete in Hc'|].
      rewrite lookup_delete_ne in Hc' by done. apply E.
      by destruct (uid_key _ _ _ _ _ _ _ _ HI Hc Hc' (eq_sym Hq)) as [-> ->].
    Qed.

    Lemma response_given u s id c rm : outstanding st u s id c -> r_sent st !! u = Some rm -> rm_imag rm ∈ r_subs st ->
      exists st', rstep st (OArrive u) = Ok (st', [EResp u u (rm_origin rm) (rm_source rm); ECancel u]) /\
        (id, s) ∉ r_armed st' /\ (forall s' id' c', ~ outstanding st' u s' id' c').
    Proof.
      intros [Hc <-] Hs Himag. destruct (reach_inv _ _ _ Hg Hn Hr) as [HI HT]. simpl. unfold arrive. rewrite Hs.
      rewrite decide_True by done. destruct (i_map _ _ HI _ _ _ Hc) as (_ & _ & imag & ty & Hs').
      rewrite Hs in Hs'. inversion Hs'; subst rm. simpl in *. rewrite Hc, (discard_spec st _ _ _ c HI Hc). simpl.
      eexists. split; [done|].
      assert (Ha : (id, s) ∈ r_armed st) by (eapply map_armed; [done|by eexists]). split.
      - simpl. rewrite erase_armed_in by (done || apply HI). tauto.
      - intros s' id' c' [Hc' Hq]. simpl in Hc'.
        destruct (decide ((s, id) = (s', id'))) as [E|E]; [inversion E; subst; by rewrite lookup_delete in Hc'|].
        rewrite lookup_delete_ne in Hc' by done. apply E.
        by destruct (uid_key _ _ _ _ _ _ _ _ HI Hc Hc' (eq_sym Hq)) as [-> ->].
    Qed.

    Lemma ids_distinct : NoDup ((r_armed st).*1) /\
      (forall s id, is_Some (r_map st !! (s, id)) -> (id, s) ∈ r_armed st) /\
      (forall s1 s2 id, is_Some (r_map st !! (s1, id)) -> is_Some (r_map st !! (s2, id)) -> s1 = s2) /\
      (forall id b, r_built st !! id = Some b -> id ∉ (r_armed st).*1).
    Proof.
      destruct (reach_inv _ _ _ Hg Hn Hr) as [HI HT]. split; [apply HI|]. split; [by intros; eapply map_armed|]. split.
      - intros s1 s2 id H1 H2. eapply owner_unique; [done| |]; by eapply map_armed.
      - intros id b Hb Hx. apply elem_of_list_fmap in Hx as ([i o] & -> & Hx).
        apply (i_blt _ _ HI) in Hb as (_ & Hb & _). by apply Hb in Hx.
    Qed.

    Lemma matched u r o a : In (EResp u r o a) ev -> r = u /\
      exists rm, r_sent st !! u = Some rm /\ rm_origin rm = o /\ rm_source rm = a.
    Proof. apply (t_resp _ _ (proj2 (reach_inv _ _ _ Hg Hn Hr))). Qed.

    Lemma timed_out u o a : In (ETimeout u o a) ev ->
      exists rm, r_sent st !! u = Some rm /\ rm_origin rm = o /\ rm_source rm = a.
    Proof. apply (t_time _ _ (proj2 (reach_inv _ _ _ Hg Hn Hr))). Qed.

    Lemma finished_nothing a : a ∈ r_fin st ->
      (forall id, (id, a) ∉ r_armed st) /\ (forall s id c, r_map st !! (s, id) = Some c -> q_source c <> a /\ s <> a).
    Proof.
      intros Ha. destruct (reach_inv _ _ _ Hg Hn Hr) as [HI HT]. destruct (i_fin _ _ HI a Ha) as [H1 H2]. split.
      - intros id Hx. apply (i_at _ _ HI) in Hx as [? Hx]. by rewrite H1 in Hx.
      - intros s id c Hc. split.
        + intros <-. apply (i_map _ _ HI) in Hc as (_ & Hc & _). by apply H2 in Hc.
        + intros ->. assert (r_timers st !! (a, id) = Some TReq) as Ht by (apply (i_tm _ _ HI); by eexists).
          by rewrite H1 in Ht.
    Qed.
  End Reached.

  Lemma fin_mono st o st' e a : rstep st o = Ok (st', e) -> a ∈ r_fin st -> a ∈ r_fin st'.
  Proof.
    assert (Htr : forall st o id b st' e, on_timer_trigger st o id b = Ok (st', e) -> r_fin st' = r_fin st).
    { intros s o0 id b s' e0. unfold on_timer_trigger. destruct (r_timers s !! (o0, id)) as [[|]|]; simpl.
      - intros H; by inversion H.
      - unfold on_request_trigger. destruct (r_map s !! (o0, id)); simpl; [destruct (decide _); simpl|]; intros H; by inversion H.
      - intros H; by inversion H. }
    assert (Hdc : forall st id st' e, do_cancel_timer st id = Ok (st', e) -> r_fin st' = r_fin st).
    { intros s id s' e0. unfold do_cancel_timer. destruct (find_armed _ _); [|done].
      destruct (on_timer_trigger s n id true) as [[s1 e1]| |] eqn:E; simpl; intros H; inversion H; subst.
      by apply Htr in E. }
    assert (Hct : forall st a id st' e, cancel_timer st a id = Ok (st', e) -> r_fin st' = r_fin st).
    { intros s a0 id s' e0. unfold cancel_timer. destruct (r_timers s !! (a0, id)); [|done]. apply Hdc. }
    intros Hs Ha. destruct o as [x origin ty|id|u|id o|x|x id|x id|x ty]; simpl in Hs.
    - unfold build in Hs. destruct (next_id _ _); [|done]. destruct (r_amap st !! (x, ty)); by inversion Hs; subst.
    - unfold send in Hs. destruct (r_built st !! id) as [b|]; [|by inversion Hs; subst].
      unfold start_timer in Hs. simpl in Hs. destruct (_ !! (asup (b_actor b), id)); [done|].
      simpl in Hs. inversion Hs; subst. simpl. by destruct (b_install b).
    - unfold arrive in Hs. destruct (r_sent st !! u) as [rm|]; [|by inversion Hs; subst].
      destruct (decide _); [|by inversion Hs; subst].
      destruct (r_map st !! _); [|by inversion Hs; subst].
      unfold discard_request in Hs. destruct (r_map st !! _); [|done].
      destruct (cancel_timer st _ _) as [[s1 e1]| |] eqn:E; simpl in Hs; inversion Hs; subst. simpl.
      by apply Hct in E as ->.
    - unfold fire in Hs. destruct (decide _); [|by inversion Hs; subst].
      destruct (on_timer_trigger _ _ _ _) as [[s1 e1]| |] eqn:E; simpl in Hs; inversion Hs; subst. simpl.
      by apply Htr in E as ->.
    - destruct (next_id _ _); [|done]. unfold start_timer in Hs. simpl in Hs. destruct (_ !! _); [done|].
      simpl in Hs. by inversion Hs; subst.
    - by apply Hct in Hs as ->.
    - unfold finish in Hs. destruct (has_timers st x).
      { destruct (r_timers st !! (x, id)); [|by inversion Hs; subst]. by apply Hct in Hs as ->. }
      destruct (has_active st x).
      { destruct (decide _); [|by inversion Hs; subst]. by apply Hdc in Hs as ->. }
      destruct (has_requests st x); [done|]. inversion Hs; subst. simpl. by apply elem_of_union_r.
    - unfold unmap in Hs. destruct (r_amap st !! _); by inversion Hs; subst.
  Qed.

  Lemma drop_ev_source st n o id b a : rinv st n -> (id, o) ∈ r_armed st -> a ∈ r_fin st ->
    Forall (fun e => source_of e <> Some a) (drop_ev st o id b).
  Proof.
    intros HI Ha Hf. destruct (i_fin _ _ HI a Hf) as [H1 H2]. unfold drop_ev.
    destruct (r_map st !! (o, id)) as [c|] eqn:Ec.
    - destruct b; constructor; simpl; try constructor; try done.
      intros H. inversion H; subst. apply (i_map _ _ HI) in Ec as (_ & Ec & _). by apply H2 in Ec.
    - constructor; [|constructor]. simpl. intros H. inversion H; subst.
      apply (i_at _ _ HI) in Ha as [k Hk]. by rewrite H1 in Hk.
  Qed.

  Lemma step_quiet st n ev o st' e a : rinv st n -> tinv st ev -> rop_ok asup st o ->
    (n + (if is_alloc o then 1 else 0) < W64)%N -> rstep st o = Ok (st', e) ->
    a ∈ r_fin st -> Forall (fun x => source_of x <> Some a) e.
  Proof.
    intros HI HT Hok Hn Hs Hf. destruct o as [x origin ty|id|u|id o|x|x id|x id|x ty]; simpl in Hs, Hn; rewrite ?N.add_0_r in Hn.
    - destruct (build_spec st n x origin ty HI Hn) as (st2 & E & _). rewrite E in Hs. inversion Hs. constructor.
    - simpl in Hok. destruct (r_built st !! id) as [b|] eqn:Eb.
      + destruct (send_spec st n id b HI Eb Hok) as (st2 & E & _). rewrite E in Hs. inversion Hs. by repeat constructor.
      + unfold send in Hs. rewrite Eb in Hs. by inversion Hs.
    - unfold arrive in Hs. destruct (r_sent st !! u) as [rm|]; [|by inversion Hs].
      destruct (decide _); [|by inversion Hs]. destruct (r_map st !! _) as [c|] eqn:Ec; [|by inversion Hs].
      rewrite (discard_spec st n _ _ c HI Ec) in Hs. simpl in Hs. inversion Hs; subst.
      constructor; [|by repeat constructor]. simpl. intros H. inversion H; subst.
      apply (i_map _ _ HI) in Ec as (_ & Ec & _). by apply (i_fin _ _ HI _ Hf) in Ec.
    - destruct (decide ((id, o) ∈ r_armed st)) as [Ha|Ha].
      + rewrite (fire_spec st n _ _ HI Ha) in Hs. inversion Hs; subst. by eapply drop_ev_source.
      + unfold fire in Hs. rewrite decide_False in Hs by done. by inversion Hs.
    - destruct (start_spec st n x HI Hn (proj1 Hok)) as (st2 & E & _). simpl in E. rewrite E in Hs. inversion Hs. constructor.
    - simpl in Hok. rewrite (cancel_spec st n _ _ HI Hok) in Hs. inversion Hs; subst.
      eapply drop_ev_source; [done| |done]. by apply (i_at _ _ HI).
    - unfold finish in Hs. destruct (has_timers st x).
      { destruct (r_timers st !! (x, id)) eqn:E; [|by inversion Hs].
        rewrite (cancel_spec st n _ _ HI) in Hs by by eexists. inversion Hs; subst.
        eapply drop_ev_source; [done| |done]. apply (i_at _ _ HI). by eexists. }
      destruct (has_active st x).
      { destruct (decide ((x, id) ∈ r_active st)) as [Hx|Hx]; [|by inversion Hs].
        apply (i_act _ _ HI) in Hx as (c & Hc & _).
        assert ((id, asup x) ∈ r_armed st) by (eapply map_armed; [done|by eexists]).
        rewrite (do_cancel_spec st n _ (asup x)) in Hs by done. inversion Hs; subst. by eapply drop_ev_source. }
      destruct (has_requests st x); by inversion Hs.
    - unfold unmap in Hs. destruct (r_amap st !! _); by inversion Hs.
  Qed.

  Lemma run_quiet ops : forall st n ev st' e a, rinv st n -> tinv st ev -> guarded rstep (rop_ok asup) st ops ->
    (n + allocs ops < W64)%N -> run rstep st ops = Ok (st', e) -> a ∈ r_fin st ->
    Forall (fun x => source_of x <> Some a) e.
  Proof.
    induction ops as [|o ops IH]; intros st n ev st' e a HI HT Hg Hn Hr Hf; simpl in Hr; [by inversion Hr|].
    destruct Hg as [Hok Hg].
    assert (Ha : allocs (o :: ops) = ((if is_alloc o then 1 else 0) + allocs ops)%N).
    { unfold allocs. simpl. destruct (is_alloc o); simpl; lia. }
    rewrite Ha in *. destruct (step_spec st n ev o HI HT Hok) as (st1 & e1 & Hs & HI1 & HT1); [lia|].
    rewrite Hs in Hg, Hr. simpl in Hr. destruct (run rstep st1 ops) as [[st2 e2]| |] eqn:E2; simpl in Hr; try done.
    inversion Hr; subst. apply Forall_app. split.
    - eapply (step_quiet st n ev o); eauto. lia.
    - eapply (IH st1); eauto; [lia|]. by eapply fin_mono.
  Qed.

  Lemma guarded_app (stepf : rstate -> rop -> res (rstate * list revent)) okf o1 o2 : forall s s1 e1,
    guarded stepf okf s (o1 ++ o2) -> run stepf s o1 = Ok (s1, e1) -> guarded stepf okf s o1 /\ guarded stepf okf s1 o2.
  Proof.
    induction o1 as [|o o1 IH]; intros s s1 e1 Hg Hr; simpl in *; [by inversion Hr; subst|].
    destruct Hg as [H1 H2]. destruct (stepf s o) as [[s2 e2]| |]; simpl in *; try done.
    destruct (run stepf s2 o1) as [[s3 e3]| |] eqn:E; simpl in Hr; try done. inversion Hr; subst.
    edestruct IH; eauto.
  Qed.

  Lemma allocs_app a b : allocs (a ++ b) = (allocs a + allocs b)%N.
  Proof.
    unfold allocs. assert (List.filter is_alloc (a ++ b) = List.filter is_alloc a ++ List.filter is_alloc b) as ->.
    { induction a as [|x a IH]; simpl; [done|]. destruct (is_alloc x); simpl; by rewrite IH. }
    rewrite app_length. lia.
  Qed.

  Lemma quiet_after_finish ops1 ops2 st1 ev1 st2 ev2 a :
    guarded rstep (rop_ok asup) rinit (ops1 ++ ops2) -> (allocs (ops1 ++ ops2) < W64)%N ->
    run rstep rinit ops1 = Ok (st1, ev1) -> run rstep st1 ops2 = Ok (st2, ev2) -> a ∈ r_fin st1 ->
    Forall (fun x => source_of x <> Some a) ev2.
  Proof.
    intros Hg Hn H1 H2 Hf. rewrite allocs_app in Hn. destruct (guarded_app _ _ _ _ _ _ _ Hg H1) as [G1 G2].
    destruct (reach_inv _ _ _ G1 ltac:(lia) H1) as [HI HT]. by eapply run_quiet.
  Qed.

  Lemma finish_others ops st ev a id st' e :
    guarded rstep (rop_ok asup) rinit ops -> (allocs ops < W64)%N -> run rstep rinit ops = Ok (st, ev) ->
    rstep st (OFinish a id) = Ok (st', e) ->
    (forall s i c, r_map st !! (s, i) = Some c -> q_source c <> a -> s <> a ->
      r_map st' !! (s, i) = Some c /\ (i, s) ∈ r_armed st') /\
    (forall b i, b <> a -> r_timers st !! (b, i) = Some TUser ->
      r_timers st' !! (b, i) = Some TUser /\ (i, b) ∈ r_armed st') /\
    (forall u o x, ~ In (ETimeout u o x) e) /\ (forall u r o x, ~ In (EResp u r o x) e).
  Proof.
    intros Hg Hn Hr Hs. destruct (reach_inv _ _ _ Hg Hn Hr) as [HI HT].
    assert (HD : forall o i0, (i0, o) ∈ r_armed st -> (o = a \/ exists c, r_map st !! (o, i0) = Some c /\ q_source c = a) ->
      Ok (drop st o i0, drop_ev st o i0 true) = Ok (st', e) ->
      (forall s i c, r_map st !! (s, i) = Some c -> q_source c <> a -> s <> a ->
        r_map st' !! (s, i) = Some c /\ (i, s) ∈ r_armed st') /\
      (forall b i, b <> a -> r_timers st !! (b, i) = Some TUser ->
        r_timers st' !! (b, i) = Some TUser /\ (i, b) ∈ r_armed st') /\
      (forall u o x, ~ In (ETimeout u o x) e) /\ (forall u r o x, ~ In (EResp u r o x) e)).
    { intros o i0 Ha Hor H. inversion H; subst st' e; clear H.
      assert (Hi : forall s i, (i, s) ∈ r_armed st -> (s, i) <> (o, i0) -> (i, s) ∈ r_armed (drop st o i0)).
      { intros s i H1 H2. simpl. rewrite erase_armed_in by (done || apply HI). split; [done|].
        intros ->. apply H2. f_equal. by eapply owner_unique. }
      split; [|split; [|split]].
      - intros s i c Hc Hq Hsa.
        assert ((s, i) <> (o, i0)) as Hne.
        { intros E. inversion E; subst. destruct Hor as [->|(c' & Hc' & Hq')]; [done|]. rewrite Hc in Hc'. by inversion Hc'; subst. }
        split; [simpl; by rewrite lookup_delete_ne|]. apply Hi; [|done]. eapply map_armed; [done|by eexists].
      - intros b i Hb Ht.
        assert ((b, i) <> (o, i0)) as Hne.
        { intros E. inversion E; subst. destruct Hor as [->|(c' & Hc' & Hq')]; [done|].
          assert (r_timers st !! (o, i0) = Some TReq) by (apply (i_tm _ _ HI); by eexists). congruence. }
        split; [simpl; by rewrite lookup_delete_ne|]. apply Hi; [|done]. apply (i_at _ _ HI). by eexists.
      - intros u o' x. unfold drop_ev. destruct (r_map st !! (o, i0)); simpl; intuition done.
      - intros u r o' x. unfold drop_ev. destruct (r_map st !! (o, i0)); simpl; intuition done. }
    assert (HS : Ok (st, []) = Ok (st', e) ->
      (forall s i c, r_map st !! (s, i) = Some c -> q_source c <> a -> s <> a ->
        r_map st' !! (s, i) = Some c /\ (i, s) ∈ r_armed st') /\
      (forall b i, b <> a -> r_timers st !! (b, i) = Some TUser ->
        r_timers st' !! (b, i) = Some TUser /\ (i, b) ∈ r_armed st') /\
      (forall u o x, ~ In (ETimeout u o x) e) /\ (forall u r o x, ~ In (EResp u r o x) e)).
    { intros H. inversion H; subst st' e. split; [|split; [|split; intros; intros []]].
      - intros s i c Hc _ _. split; [done|]. eapply map_armed; [done|by eexists].
      - intros b i _ Ht. split; [done|]. apply (i_at _ _ HI). by eexists. }
    simpl in Hs. unfold finish in Hs. destruct (has_timers st a).
    { destruct (r_timers st !! (a, id)) eqn:E; [|by apply HS].
      rewrite (cancel_spec st _ _ _ HI) in Hs by by eexists.
      apply (HD a id); [|by left|done]. apply (i_at _ _ HI). by eexists. }
    destruct (has_active st a).
    { destruct (decide ((a, id) ∈ r_active st)) as [Hx|Hx]; [|by apply HS].
      apply (i_act _ _ HI) in Hx as (c & Hc & Hq).
      assert ((id, asup a) ∈ r_armed st) by (eapply map_armed; [done|by eexists]).
      rewrite (do_cancel_spec st _ _ (asup a) HI) in Hs by done. apply (HD (asup a) id); [done| |done]. right. by eexists. }
    destruct (has_requests st a); [done|]. inversion Hs; subst st' e. simpl. split; [|split; [|split; intros; intros []]].
    - intros s i c Hc _ _. split; [done|]. eapply map_armed; [done|by eexists].
    - intros b i _ Ht. split; [done|]. apply (i_at _ _ HI). by eexists.
  Qed.

  (** The loops of shutdown_finish end. *)
  Lemma erase_armed_len l id o : (id, o) ∈ l -> S (length (erase_armed l id o)) = length l.
  Proof.
    induction l as [|[j q] l IH]; simpl; intros H; [by apply elem_of_nil in H|].
    destruct (N.eqb_spec j id); destruct (N.eqb_spec q o); simpl; try (subst; done);
      apply elem_of_cons in H as [H|H]; try (inversion H; congruence); by rewrite IH.
  Qed.

  Lemma finish_ends st n ev a : rinv st n -> tinv st ev -> (n < W64)%N ->
    exists ids st' e, run rstep st (OFinish a <$> ids) = Ok (st', e) /\ a ∈ r_fin st'.
  Proof.
    remember (length (r_armed st)) as k eqn:Hk. revert st n ev Hk.
    induction k as [k IH] using lt_wf_ind. intros st n ev Hk HI HT Hn.
    destruct (has_timers st a) eqn:Et.
    { pose proof Et as Et'. apply existsb_exists in Et' as ([[x id] t] & Hin & He). simpl in He. apply N.eqb_eq in He as ->.
      apply elem_of_list_In, elem_of_map_to_list in Hin.
      assert (Ha : (id, a) ∈ r_armed st) by (apply (i_at _ _ HI); by eexists).
      destruct (IH (length (r_armed (drop st a id)))) with (st := drop st a id) (n := n) (ev := ev ++ drop_ev st a id true)
        as (ids & st' & e & Hr & Hf); auto.
      - simpl. pose proof (erase_armed_len _ _ _ Ha). lia.
      - by apply rinv_drop.
      - by eapply tinv_drop_any.
      - exists (id :: ids), st', (drop_ev st a id true ++ e). split; [|done]. csimpl. unfold finish.
        rewrite Et, Hin, (cancel_spec st n _ _ HI) by by eexists. simpl. rewrite Hr. done. }
    destruct (has_active st a) eqn:Ea.
    { pose proof Ea as Ea'. apply existsb_exists in Ea' as ([x id] & Hin & He). simpl in He. apply N.eqb_eq in He as ->.
      apply elem_of_list_In, elem_of_elements in Hin. pose proof Hin as Hx.
      apply (i_act _ _ HI) in Hin as (c & Hc & Hq).
      assert (Ha : (id, asup a) ∈ r_armed st) by (eapply map_armed; [done|by eexists]).
      destruct (IH (length (r_armed (drop st (asup a) id)))) with (st := drop st (asup a) id) (n := n)
        (ev := ev ++ drop_ev st (asup a) id true) as (ids & st' & e & Hr & Hf); auto.
      - simpl. pose proof (erase_armed_len _ _ _ Ha). lia.
      - by apply rinv_drop.
      - by eapply tinv_drop_any.
      - exists (id :: ids), st', (drop_ev st (asup a) id true ++ e). split; [|done]. csimpl. unfold finish.
        rewrite Et, Ea, decide_True, (do_cancel_spec st n _ (asup a) HI) by done. simpl. rewrite Hr. done. }
    exists [0%N]. csimpl. unfold finish. rewrite Et, Ea. destruct (has_requests st a) eqn:Er.
    { exfalso. apply has_requests_true in Er as [i Hi]. apply (i_tm _ _ HI) in Hi. by rewrite has_timers_false in Hi. }
    eexists _, _. simpl. split; [done|]. simpl. apply elem_of_union_l. by apply elem_of_singleton.
  Qed.

  Lemma finish_possible ops st ev a :
    guarded rstep (rop_ok asup) rinit ops -> (allocs ops < W64)%N -> run rstep rinit ops = Ok (st, ev) ->
    exists ids st' e, run rstep st (OFinish a <$> ids) = Ok (st', e) /\ a ∈ r_fin st'.
  Proof. intros Hg Hn Hr. destruct (reach_inv _ _ _ Hg Hn Hr) as [HI HT]. by eapply finish_ends. Qed.
End P.
