From stdpp Require Import base list gmap sorting.
From Verif Require Import Base TimersModel TimersSpec.

Definition nlt (m n : node) : Prop := (m.2 < n.2)%Z \/ (m.2 = n.2 /\ (m.1 < n.1)%N).

(** What a [Fired] event promises about the events before it. *)
Definition fire_ok (e1 : list tevent) (id : N) (t : Z) : Prop :=
  exists t0 iv, Started id t0 iv ∈ e1 /\ (t0 + Z.of_N iv < t)%Z /\
    forall id' t0' iv', Started id' t0' iv' ∈ e1 -> id' <> id -> callbacks id' e1 = 0 ->
      (t0 + Z.of_N iv < t0' + Z.of_N iv')%Z \/
      ((t0 + Z.of_N iv = t0' + Z.of_N iv')%Z /\ (id < id')%N).

Definition fires_ok (ev : list tevent) : Prop :=
  forall e1 id t e2, ev = e1 ++ Fired id t :: e2 -> fire_ok e1 id t.

Definition all_cancel (fs : list frame) : Prop := Forall (fun f => match f with FCancel _ => True | _ => False end) fs.

Definition phase_ok (s : tstate) : Prop :=
  (all_cancel (t_stack s) /\ Forall (fun n : node => (t_now s <= n.2)%Z) (t_nodes s)) \/
  (exists fs id d suf, t_stack s = fs ++ [FUpd id KNone] /\ all_cancel fs /\
     t_nodes s = (id, d) :: suf /\ (d < t_now s)%Z).

Record TInv (s : tstate) (ev : list tevent) : Prop := {
  ti_icpt : t_icpt s = false;
  ti_now : (t_now s <= t_clock s)%Z;
  ti_sorted : StronglySorted nlt (t_nodes s);
  ti_map : forall id, id ∈ t_map s <-> id ∈ (t_nodes s).*1;
  ti_next : forall id, id ∈ (t_nodes s).*1 -> (id < t_next s)%N;
  ti_stack : NoDup (frame_id <$> t_stack s);
  ti_stackin : forall id, id ∈ frame_id <$> t_stack s -> id ∈ (t_nodes s).*1;
  ti_phase : phase_ok s;
  ti_cbz : forall id, id ∈ (t_nodes s).*1 -> id ∉ frame_id <$> t_stack s -> callbacks id ev = 0;
  ti_cbs : forall id, id ∈ frame_id <$> t_stack s -> callbacks id ev = 1;
  ti_cba : forall id, (id < t_next s)%N -> (1 <= id)%N -> id ∉ (t_nodes s).*1 -> callbacks id ev = 1;
  ti_cbn : forall id, (t_next s <= id)%N -> callbacks id ev = 0;
  ti_cbzero : callbacks 0 ev = 0;
  ti_nextp : (1 <= t_next s)%N;
  ti_nodedl : forall id d, (id, d) ∈ t_nodes s -> exists t0 iv, Started id t0 iv ∈ ev /\ d = (t0 + Z.of_N iv)%Z;
  ti_stlt : forall id t0 iv, Started id t0 iv ∈ ev -> (id < t_next s)%N /\ (1 <= id)%N;
  ti_stuniq : forall id t0 iv t1 jv, Started id t0 iv ∈ ev -> Started id t1 jv ∈ ev -> t0 = t1 /\ iv = jv;
  ti_fires : fires_ok ev
}.

(* ---- lists of nodes ---- *)

Lemma nlt_trans m n p : nlt m n -> nlt n p -> nlt m p.
Proof. unfold nlt. lia. Qed.

Lemma SS_cons_inv {A} (R : A -> A -> Prop) x l : StronglySorted R (x :: l) -> StronglySorted R l /\ Forall (R x) l.
Proof. intros H. by inversion H. Qed.

Lemma insert_node_elem n l x : x ∈ insert_node n l <-> x = n \/ x ∈ l.
Proof.
  induction l as [|m l IH]; simpl; [set_solver|].
  destruct (bool_decide (n.2 < m.2)%Z); [set_solver|]. rewrite !elem_of_cons, IH. tauto.
Qed.

Lemma insert_node_ids n l id : id ∈ (insert_node n l).*1 <-> id = n.1 \/ id ∈ l.*1.
Proof.
  rewrite !elem_of_list_fmap. setoid_rewrite insert_node_elem. split.
  - intros (y & -> & [->|Hy]); [by left|]. right; eauto.
  - intros [->|(y & -> & Hy)]; eauto.
Qed.

Lemma insert_node_sorted n l :
  StronglySorted nlt l -> (forall m, m ∈ l -> (m.1 < n.1)%N) -> StronglySorted nlt (insert_node n l).
Proof.
  induction l as [|m l IH]; intros Hs Hlt; simpl.
  - repeat constructor.
  - destruct (SS_cons_inv _ _ _ Hs) as [Hs' Hm].
    destruct (bool_decide (n.2 < m.2)%Z) eqn:Hb.
    + apply bool_decide_eq_true in Hb. constructor; [done|].
      constructor; [left; done|]. eapply Forall_impl; [exact Hm|]. intros x Hx.
      eapply nlt_trans; [|exact Hx]. by left.
    + apply bool_decide_eq_false in Hb. constructor.
      * apply IH; [done|]. intros x Hx. apply Hlt. set_solver.
      * apply Forall_forall. intros x Hx. apply insert_node_elem in Hx as [->|Hx].
        -- pose proof (Hlt m ltac:(set_solver)). unfold nlt. lia.
        -- rewrite Forall_forall in Hm. by apply Hm.
Qed.

Lemma has_node_spec id l : has_node id l = true <-> id ∈ l.*1.
Proof.
  induction l as [|m l IH]; simpl; [set_solver|].
  rewrite orb_true_iff, IH, bool_decide_eq_true, elem_of_cons. split; intros [H|H]; auto.
Qed.

Lemma sorted_nodup l : StronglySorted nlt l -> NoDup l.
Proof.
  induction l as [|m l IH]; intros Hs; [constructor|].
  destruct (SS_cons_inv _ _ _ Hs) as [Hs' Hm]. constructor; [|auto].
  intros Hin. rewrite Forall_forall in Hm. specialize (Hm m Hin). unfold nlt in Hm. lia.
Qed.

Lemma erase_node_subset id l x : x ∈ erase_node id l -> x ∈ l.
Proof.
  induction l as [|m l IH]; simpl; [done|]. destruct (bool_decide (m.1 = id)); set_solver.
Qed.

Lemma erase_node_sorted id l : StronglySorted nlt l -> StronglySorted nlt (erase_node id l).
Proof.
  induction l as [|m l IH]; intros Hs; simpl; [constructor|].
  destruct (SS_cons_inv _ _ _ Hs) as [Hs' Hm]. destruct (bool_decide (m.1 = id)); [done|].
  constructor; [auto|]. apply Forall_forall. intros x Hx. apply erase_node_subset in Hx.
  rewrite Forall_forall in Hm. auto.
Qed.

Lemma erase_node_ids id l x : NoDup (l.*1) -> x ∈ (erase_node id l).*1 <-> x ∈ l.*1 /\ x <> id.
Proof.
  induction l as [|m l IH]; simpl; [set_solver|]. intros Hnd. inversion Hnd as [|? ? Hni Hnd']; subst.
  destruct (bool_decide (m.1 = id)) eqn:Hb.
  - apply bool_decide_eq_true in Hb. rewrite elem_of_cons. split.
    + intros Hx. split; [auto|]. intros ->. by subst.
    + intros [[->|Hx] Hne]; [by subst|done].
  - apply bool_decide_eq_false in Hb. simpl. rewrite !elem_of_cons, IH by done. split.
    + intros [->|[Hx Hne]]; auto.
    + intros [[->|Hx] Hne]; auto.
Qed.

Lemma callbacks_app id a b : callbacks id (a ++ b) = callbacks id a + callbacks id b.
Proof. unfold callbacks. rewrite List.filter_app, app_length. done. Qed.

(** NoDup of the ids is an extra part of the invariant. *)
Definition TI (s : tstate) (ev : list tevent) : Prop := TInv s ev /\ NoDup ((t_nodes s).*1).

Lemma fires_ok_app ev e :
  fires_ok ev -> (forall e1 id t e2, e = e1 ++ Fired id t :: e2 -> fire_ok (ev ++ e1) id t) ->
  fires_ok (ev ++ e).
Proof.
  intros H1 H2 e1 id t e2 Heq.
  apply app_eq_inv in Heq as [(k & -> & Hk)|(k & -> & Hk)].
  - destruct k as [|x k]; simpl in Hk.
    + specialize (H2 [] id t e2 (eq_sym Hk)). by rewrite !app_nil_r in H2.
    + inversion Hk; subst. eapply H1; reflexivity.
  - eapply H2. exact Hk.
Qed.

Lemma fires_ok_nofire ev e :
  fires_ok ev -> (forall id t, Fired id t ∉ e) -> fires_ok (ev ++ e).
Proof.
  intros H1 H2. apply fires_ok_app; [done|]. intros e1 id t e2 ->. exfalso. apply (H2 id t). set_solver.
Qed.

Lemma TI_init : TI tinit [].
Proof.
  split; [|constructor]. split; simpl; try done; try set_solver.
  - constructor.
  - constructor.
  - left. split; constructor.
  - intros id H1 H2. lia.
  - intros e1 id t e2 H. destruct e1; done.
Qed.

Lemma upd_loop_head now map l :
  (forall n : node, n ∈ l -> n.1 ∈ map) ->
  upd_loop now map [] l =
  (l, match l with n :: _ => if bool_decide (n.2 < now)%Z then Some n.1 else None | [] => None end).
Proof.
  intros H. destruct l as [|n l]; simpl; [done|].
  destruct (bool_decide (n.2 < now)%Z); [|done].
  rewrite bool_decide_eq_true_2; [done|]. apply H. set_solver.
Qed.

(** The invariant with an empty stack, before the loop of update_time (re)starts. *)
Record Core (s : tstate) (ev : list tevent) : Prop := {
  co_icpt : t_icpt s = false;
  co_now : (t_now s <= t_clock s)%Z;
  co_sorted : StronglySorted nlt (t_nodes s);
  co_nodup : NoDup ((t_nodes s).*1);
  co_map : forall id, id ∈ t_map s <-> id ∈ (t_nodes s).*1;
  co_next : forall id, id ∈ (t_nodes s).*1 -> (id < t_next s)%N;
  co_stack : t_stack s = [];
  co_cbz : forall id, id ∈ (t_nodes s).*1 -> callbacks id ev = 0;
  co_cba : forall id, (id < t_next s)%N -> (1 <= id)%N -> id ∉ (t_nodes s).*1 -> callbacks id ev = 1;
  co_cbn : forall id, (t_next s <= id)%N -> callbacks id ev = 0;
  co_cbzero : callbacks 0 ev = 0;
  co_nextp : (1 <= t_next s)%N;
  co_nodedl : forall id d, (id, d) ∈ t_nodes s -> exists t0 iv, Started id t0 iv ∈ ev /\ d = (t0 + Z.of_N iv)%Z;
  co_stlt : forall id t0 iv, Started id t0 iv ∈ ev -> (id < t_next s)%N /\ (1 <= id)%N;
  co_stuniq : forall id t0 iv t1 jv, Started id t0 iv ∈ ev -> Started id t1 jv ∈ ev -> t0 = t1 /\ iv = jv;
  co_fires : fires_ok ev
}.

Lemma core_loop s ev :
  Core s ev ->
  exists s' e, continue_update s [] (t_nodes s) KNone = Ok (s', e) /\ TI s' (ev ++ e).
Proof.
  intros C. unfold continue_update.
  rewrite upd_loop_head.
  2:{ intros n Hn. apply (co_map _ _ C). apply elem_of_list_fmap. eauto. }
  destruct (t_nodes s) as [|[id d] suf] eqn:Hn.
  - (* empty *)
    eexists _, _. split; [reflexivity|]. rewrite app_nil_r.
    destruct C. unfold set_nodes; simpl. rewrite Hn in *. split; [|constructor].
    split; simpl; rewrite ?co_stack0; simpl; try done.
    all: try (intros i Hi; by apply elem_of_nil in Hi).
    all: first [ left; simpl; by repeat constructor | by constructor ].
  - simpl. destruct (bool_decide (d < t_now s)%Z) eqn:Hb.
    + apply bool_decide_eq_true in Hb.
      eexists _, _. split; [reflexivity|].
      destruct C. rewrite Hn in *. unfold set_stack, set_nodes; simpl.
      assert (Hid : id ∈ ((id, d) :: suf).*1) by (simpl; set_solver).
      assert (Hcb0 : callbacks id ev = 0) by auto.
      assert (Hcb : forall i, callbacks i [Fired id (t_now s)] = if bool_decide (id = i) then 1 else 0).
      { intros i. unfold callbacks; simpl. destruct (bool_decide (id = i)); done. }
      split; [|done].
      split; simpl; rewrite ?co_stack0; simpl; try done.
      * apply NoDup_singleton.
      * intros i Hi. apply elem_of_list_singleton in Hi as ->. done.
      * right. exists [], id, d, suf. simpl. repeat split; try done. constructor.
      * intros i Hi Hni. rewrite callbacks_app, Hcb, co_cbz0 by done.
        rewrite bool_decide_eq_false_2 by set_solver. done.
      * intros i Hi. apply elem_of_list_singleton in Hi as ->.
        rewrite callbacks_app, Hcb, Hcb0, bool_decide_eq_true_2; done.
      * intros i H1 H2 H3. rewrite callbacks_app, Hcb, co_cba0 by done.
        rewrite bool_decide_eq_false_2; [done|]. intros ->. apply H3. set_solver.
      * intros i H1. rewrite callbacks_app, Hcb, co_cbn0 by done.
        rewrite bool_decide_eq_false_2; [done|]. intros ->. specialize (co_next0 i Hid). lia.
      * rewrite callbacks_app, Hcb, co_cbzero0, bool_decide_eq_false_2; [done|].
        intros ->. destruct (co_nodedl0 0%N d ltac:(set_solver)) as (t0 & iv & Hst & _).
        apply co_stlt0 in Hst. lia.
      * intros i d' Hi. destruct (co_nodedl0 i d' Hi) as (t0 & iv & Hst & ->).
        exists t0, iv. split; [set_solver|done].
      * intros i t0 iv Hst. apply elem_of_app in Hst as [Hst|Hst]; [eauto|].
        apply elem_of_list_singleton in Hst. done.
      * intros i t0 iv t1 jv Ha Hb'.
        apply elem_of_app in Ha as [Ha|Ha]; [|apply elem_of_list_singleton in Ha; done].
        apply elem_of_app in Hb' as [Hb'|Hb']; [|apply elem_of_list_singleton in Hb'; done].
        eauto.
      * apply fires_ok_app; [done|]. intros e1 i t e2 Heq.
        destruct e1 as [|x e1]; simpl in Heq; [|inversion Heq; destruct e1; done].
        inversion Heq; subst. rewrite app_nil_r.
        destruct (co_nodedl0 i d ltac:(set_solver)) as (t0 & iv & Hst & ->).
        exists t0, iv. split; [done|]. split; [done|].
        intros id' t0' iv' Hst' Hne Hz.
        destruct (decide (id' ∈ ((i, (t0 + Z.of_N iv)%Z) :: suf).*1)) as [Hin|Hnin].
        -- simpl in Hin. apply elem_of_cons in Hin as [->|Hin]; [done|].
           apply elem_of_list_fmap in Hin as ([i' d'] & -> & Hin). simpl in *.
           destruct (co_nodedl0 i' d' ltac:(set_solver)) as (t1 & jv & Hst1 & ->).
           destruct (co_stuniq0 _ _ _ _ _ Hst' Hst1) as [-> ->].
           destruct (SS_cons_inv _ _ _ co_sorted0) as [_ Hf]. rewrite Forall_forall in Hf.
           specialize (Hf _ Hin). unfold nlt in Hf; simpl in Hf. lia.
        -- exfalso. destruct (co_stlt0 _ _ _ Hst') as [Hl1 Hl2].
           rewrite (co_cba0 id') in Hz by done. done.
    + apply bool_decide_eq_false in Hb. eexists _, _. split; [reflexivity|]. rewrite app_nil_r.
      destruct C. rewrite Hn in *. unfold set_nodes; simpl. split; [|done].
      split; simpl; rewrite ?co_stack0; simpl; try done.
      all: try (intros i Hi; by apply elem_of_nil in Hi).
      all: try by constructor.
      all: try (by intros i Hi _; auto).
      * left. simpl. split; [constructor|]. simpl. destruct (SS_cons_inv _ _ _ co_sorted0) as [_ Hf].
        constructor; [simpl; lia|]. eapply Forall_impl; [exact Hf|]. intros x Hx. unfold nlt in Hx. simpl in Hx. lia.
Qed.

Lemma TI_core s ev : TI s ev -> t_stack s = [] -> Core (set_now s (t_clock s)) ev.
Proof.
  intros [T Hnd] Hst. destruct T. unfold set_now. split; simpl; try done; try lia.
  intros id Hid. apply ti_cbz0; [done|]. rewrite Hst. set_solver.
Qed.

Lemma phase_stack_app s f : phase_ok s -> (exists id, f = FCancel id) ->
  phase_ok (set_stack s (f :: t_stack s)).
Proof.
  intros [[H1 H2]|(fs & id & d & suf & H1 & H2 & H3 & H4)] [id' ->]; unfold set_stack; simpl.
  - left. split; [|done]. by constructor.
  - right. simpl. exists (FCancel id' :: fs), id, d, suf. simpl. rewrite H1.
    repeat split; try done. by constructor.
Qed.

Lemma TI_step s ev o :
  TI s ev -> timer_discipline s o -> exists s' e, tstep s o = Ok (s', e) /\ TI s' (ev ++ e).
Proof.
  intros [T Hnd] Hok. destruct o as [dt| |iv|id| |b]; simpl.
  - (* clock *)
    eexists _, _. split; [reflexivity|]. rewrite app_nil_r. split; [|done].
    destruct T. split; simpl; try done. lia.
  - (* update *)
    destruct (t_stack s) as [|f st] eqn:Hst.
    + unfold update_time.
      pose proof (TI_core s ev (conj T Hnd) Hst) as C.
      destruct (core_loop _ _ C) as (s' & e & Heq & HT). simpl in Heq. eauto.
    + eexists _, _. split; [reflexivity|]. by rewrite app_nil_r.
  - (* start *)
    destruct T. rewrite ti_icpt0. unfold do_start.
    eexists _, _. split; [reflexivity|].
    unfold set_map, set_nodes, bump; simpl.
    set (id := t_next s) in *. set (d := (t_now s + Z.of_N iv)%Z).
    assert (Hfresh : id ∉ (t_nodes s).*1).
    { intros Hin. specialize (ti_next0 _ Hin). lia. }
    assert (Hcb : forall i, callbacks i (ev ++ [Started id (t_now s) iv]) = callbacks i ev).
    { intros i. rewrite callbacks_app. unfold callbacks at 2; simpl. lia. }
    split.
    + split; simpl; try done.
      * apply insert_node_sorted; [done|]. intros [i d'] Hm. simpl.
        apply ti_next0. apply elem_of_list_fmap. exists (i, d'). done.
      * intros i. rewrite insert_node_ids, elem_of_union, elem_of_singleton, ti_map0. done.
      * intros i Hi. apply insert_node_ids in Hi as [->|Hi]; simpl; [lia|].
        specialize (ti_next0 _ Hi). lia.
      * intros i Hi. apply insert_node_ids. right. auto.
      * destruct ti_phase0 as [[H1 H2]|(fs & id' & d' & suf & H1 & H2 & H3 & H4)].
        -- left. simpl. split; [done|]. apply Forall_forall. intros x Hx.
           apply insert_node_elem in Hx as [->|Hx]; simpl; [unfold d; lia|].
           rewrite Forall_forall in H2. by apply H2.
        -- right. exists fs, id', d', (insert_node (id, d) suf). simpl. repeat split; try done.
           rewrite H3. simpl. rewrite bool_decide_eq_false_2; [done|]. simpl. unfold d. lia.
      * intros i Hi Hni. rewrite Hcb. apply insert_node_ids in Hi as [->|Hi]; simpl.
        -- apply ti_cbn0. lia.
        -- auto.
      * intros i Hi. rewrite Hcb. auto.
      * intros i H1 H2 H3. rewrite Hcb. rewrite insert_node_ids in H3.
        apply ti_cba0; [|done|tauto]. simpl in H3.
        assert (i <> id) by tauto. lia.
      * intros i Hi. rewrite Hcb. apply ti_cbn0. lia.
      * by rewrite Hcb.
      * lia.
      * intros i d' Hi. apply insert_node_elem in Hi as [Heq|Hi].
        -- inversion Heq; subst. exists (t_now s), iv. split; [set_solver|done].
        -- destruct (ti_nodedl0 _ _ Hi) as (t0 & jv & Hst & ->). exists t0, jv. split; [set_solver|done].
      * intros i t0 jv Hi. apply elem_of_app in Hi as [Hi|Hi].
        -- apply ti_stlt0 in Hi. lia.
        -- apply elem_of_list_singleton in Hi. inversion Hi; subst. lia.
      * intros i t0 jv t1 kv Ha Hb.
        apply elem_of_app in Ha as [Ha|Ha]; apply elem_of_app in Hb as [Hb|Hb].
        -- eauto.
        -- apply elem_of_list_singleton in Hb. inversion Hb; subst. apply ti_stlt0 in Ha. lia.
        -- apply elem_of_list_singleton in Ha. inversion Ha; subst. apply ti_stlt0 in Hb. lia.
        -- apply elem_of_list_singleton in Ha. apply elem_of_list_singleton in Hb.
           inversion Ha; inversion Hb; subst. done.
      * apply fires_ok_nofire; [done|]. intros i t Hin. apply elem_of_list_singleton in Hin. done.
    + clear -Hnd Hfresh. revert Hnd Hfresh. generalize (t_nodes s). intros l.
      induction l as [|m l IH]; intros Hnd Hf; simpl.
      * apply NoDup_singleton.
      * inversion Hnd as [|? ? Hni Hnd']; subst. simpl in Hf.
        destruct (bool_decide (d < m.2)%Z); simpl.
        -- constructor; [set_solver|done].
        -- constructor.
           ++ rewrite insert_node_ids. simpl. set_solver.
           ++ apply IH; [done|set_solver].
  - (* cancel *)
    destruct Hok as [Hin Hnst]. destruct T.
    rewrite bool_decide_eq_true_2 by done. rewrite ti_icpt0. unfold do_cancel.
    assert (Hinn : id ∈ (t_nodes s).*1) by (by apply ti_map0).
    assert (has_node id (t_nodes s) = true) as -> by (by apply has_node_spec).
    rewrite bool_decide_eq_true_2 by done.
    eexists _, _. split; [reflexivity|].
    assert (Hcb : forall i, callbacks i [Cancelled id] = if bool_decide (id = i) then 1 else 0).
    { intros i. unfold callbacks; simpl. destruct (bool_decide (id = i)); done. }
    split; [|done].
    split; unfold set_stack; simpl; try done.
    + constructor; done.
    + intros i Hi. apply elem_of_cons in Hi as [->|Hi]; auto.
    + apply (phase_stack_app s (FCancel id)); eauto.
    + intros i Hi Hni. rewrite callbacks_app, Hcb, ti_cbz0; [|done|set_solver].
      rewrite bool_decide_eq_false_2 by set_solver. done.
    + intros i Hi. rewrite callbacks_app, Hcb. apply elem_of_cons in Hi as [->|Hi].
      * rewrite ti_cbz0, bool_decide_eq_true_2; done.
      * rewrite ti_cbs0 by done. rewrite bool_decide_eq_false_2; [done|]. intros ->. done.
    + intros i H1 H2 H3. rewrite callbacks_app, Hcb, ti_cba0 by done.
      rewrite bool_decide_eq_false_2; [done|]. intros ->. done.
    + intros i H1. rewrite callbacks_app, Hcb, ti_cbn0 by done.
      rewrite bool_decide_eq_false_2; [done|]. intros ->. specialize (ti_next0 _ Hinn). lia.
    + rewrite callbacks_app, Hcb, ti_cbzero0, bool_decide_eq_false_2; [done|]. intros ->.
      apply elem_of_list_fmap in Hinn as ([i d] & Hi0 & Hd). simpl in *. subst i.
      destruct (ti_nodedl0 _ _ Hd) as (t0 & iv & Hst & _). apply ti_stlt0 in Hst. lia.
    + intros i d Hi. destruct (ti_nodedl0 _ _ Hi) as (t0 & jv & Hst & ->). exists t0, jv. split; [set_solver|done].
    + intros i t0 jv Hi. apply elem_of_app in Hi as [Hi|Hi]; [eauto|].
      apply elem_of_list_singleton in Hi. done.
    + intros i t0 jv t1 kv Ha Hb.
      apply elem_of_app in Ha as [Ha|Ha]; [|apply elem_of_list_singleton in Ha; done].
      apply elem_of_app in Hb as [Hb|Hb]; [|apply elem_of_list_singleton in Hb; done]. eauto.
    + apply fires_ok_nofire; [done|]. intros i t Hi. apply elem_of_list_singleton in Hi. done.
  - (* return *)
    destruct (t_stack s) as [|f st] eqn:Hst.
    { eexists _, _. split; [reflexivity|]. by rewrite app_nil_r. }
    assert (Hfin : frame_id f ∈ (t_nodes s).*1).
    { apply (ti_stackin _ _ T). rewrite Hst. set_solver. }
    destruct f as [id k|id]; simpl in Hfin.
    + (* FUpd: bottom frame *)
      destruct T. rewrite bool_decide_eq_true_2 by (by apply ti_map0).
      destruct ti_phase0 as [[H1 _]|(fs & id' & d & suf & H1 & H2 & H3 & H4)].
      { rewrite Hst in H1. inversion H1; done. }
      rewrite Hst in H1. destruct fs as [|f fs]; simpl in H1; inversion H1; subst.
      2:{ inversion H2; done. }
      rewrite H3. simpl. rewrite bool_decide_eq_true_2 by done.
      assert (Hid : id' ∉ suf.*1).
      { rewrite H3 in Hnd. simpl in Hnd. by inversion Hnd. }
      assert (C : Core (set_nodes (set_stack (set_map s (t_map s ∖ {[id']})) []) suf) ev).
      { rewrite H3 in *. simpl in *. inversion Hnd as [|? ? Hni Hnd']; subst.
        destruct (SS_cons_inv _ _ _ ti_sorted0) as [Hs _].
        split; unfold set_nodes, set_stack, set_map; simpl; try done; try lia.
        - intros i. rewrite elem_of_difference, ti_map0, elem_of_cons, elem_of_singleton. split.
          + intros [[->|Hi] Hne]; [done|done].
          + intros Hi. split; [auto|]. intros ->. done.
        - intros i Hi. apply ti_next0. set_solver.
        - intros i Hi. apply ti_cbz0; [set_solver|]. rewrite Hst. simpl.
          intros Hx. apply elem_of_list_singleton in Hx as ->. done.
        - intros i Hl1 Hl2 Hni'. destruct (decide (i = id')) as [->|Hne].
          + apply ti_cbs0. rewrite Hst. simpl. set_solver.
          + apply ti_cba0; [done|done|set_solver].
        - intros i d' Hi. apply ti_nodedl0. set_solver. }
      destruct (core_loop _ _ C) as (s' & e & Heq & HT).
      exists s', e. split; [|done]. rewrite <- Heq.
      unfold continue_update, set_nodes, set_stack, set_map; simpl.
      destruct (upd_loop _ _ _ _) as [nodes [x|]]; reflexivity.
    + (* FCancel *)
      destruct T. rewrite bool_decide_eq_true_2 by (by apply ti_map0).
      assert (has_node id (t_nodes s) = true) as -> by (by apply has_node_spec).
      eexists _, _. split; [reflexivity|]. rewrite app_nil_r.
      unfold set_nodes, set_stack, set_map; simpl.
      rewrite Hst in *. simpl in *. inversion ti_stack0 as [|? ? Hni Hnds]; subst.
      split; [|].
      * split; simpl; try done.
        -- by apply erase_node_sorted.
        -- intros i. rewrite erase_node_ids by done.
           rewrite elem_of_difference, ti_map0, elem_of_singleton. done.
        -- intros i Hi. apply erase_node_ids in Hi as [Hi _]; [|done]. auto.
        -- intros i Hi. apply erase_node_ids; [done|]. split; [set_solver|]. intros ->. done.
        -- destruct ti_phase0 as [[H1 H2]|(fs & id' & d' & suf & H1 & H2 & H3 & H4)].
           ++ left. simpl. rewrite Hst in H1. inversion H1; subst. split; [done|].
              apply Forall_forall. intros x Hx. apply erase_node_subset in Hx.
              rewrite Forall_forall in H2. auto.
           ++ right. rewrite Hst in H1. destruct fs as [|f fs]; simpl in H1; inversion H1; subst.
              exists fs, id', d', (erase_node id suf). simpl. inversion H2; subst.
              repeat split; try done. rewrite H3. simpl.
              rewrite bool_decide_eq_false_2; [done|]. simpl. intros ->. apply Hni. 
              rewrite fmap_app. set_solver.
        -- intros i Hi Hni'. apply erase_node_ids in Hi as [Hi Hne]; [|done].
           apply ti_cbz0; [done|set_solver].
        -- intros i Hi. apply ti_cbs0. set_solver.
        -- intros i H1 H2 H3. destruct (decide (i = id)) as [->|Hne].
           ++ apply ti_cbs0. set_solver.
           ++ apply ti_cba0; [done|done|]. intros Hx. apply H3. apply erase_node_ids; done.
        -- intros i d Hi. apply erase_node_subset in Hi. eauto.
      * clear -Hnd. revert Hnd. generalize (t_nodes s). intros l.
        induction l as [|m l IH]; intros Hnd; simpl; [constructor|].
        inversion Hnd as [|? ? Hni Hnd']; subst.
        destruct (bool_decide (m.1 = id)); [done|]. simpl. constructor; [|auto].
        rewrite erase_node_ids by done. tauto.
  - (* intercept *)
    simpl in Hok. subst b. destruct (t_stack s) as [|f st] eqn:Hst.
    + eexists _, _. split; [reflexivity|]. rewrite app_nil_r. split; [|done].
      destruct T. split; simpl; rewrite ?Hst in *; try done.
      destruct ti_phase0 as [[H1 H2]|(fs & id' & d' & suf & H1 & H2 & H3 & H4)].
      * left. simpl. rewrite Hst in H1. done.
      * rewrite Hst in H1. destruct fs; done.
    + eexists _, _. split; [reflexivity|]. by rewrite app_nil_r.
Qed.

Lemma timers_reach ops :
  guarded tstep timer_discipline tinit ops ->
  exists s ev, run tstep tinit ops = Ok (s, ev) /\ TI s ev.
Proof.
  intros Hg. destruct (run_safe_ev tstep timer_discipline TI TI_step ops tinit [] TI_init Hg)
    as (s & e & Hr & HT). eauto.
Qed.

Lemma timers_run_ok ops :
  guarded tstep timer_discipline tinit ops -> exists s ev, run tstep tinit ops = Ok (s, ev).
Proof. intros Hg. destruct (timers_reach ops Hg) as (s & ev & H & _). eauto. Qed.

Lemma timers_fire ops s ev e1 id t e2 :
  guarded tstep timer_discipline tinit ops -> run tstep tinit ops = Ok (s, ev) ->
  ev = e1 ++ Fired id t :: e2 -> fire_ok e1 id t.
Proof.
  intros Hg Hr Heq. destruct (timers_reach ops Hg) as (s' & ev' & Hr' & [T _]).
  rewrite Hr in Hr'. inversion Hr'; subst s' ev'. exact (ti_fires _ _ T _ _ _ _ Heq).
Qed.

Lemma timers_never_early ops s ev e1 id t e2 :
  guarded tstep timer_discipline tinit ops -> run tstep tinit ops = Ok (s, ev) ->
  ev = e1 ++ Fired id t :: e2 ->
  exists t0 iv, Started id t0 iv ∈ e1 /\ (t0 + Z.of_N iv < t)%Z.
Proof.
  intros Hg Hr Heq. destruct (timers_fire ops s ev e1 id t e2 Hg Hr Heq) as (t0 & iv & H1 & H2 & _). eauto.
Qed.

Lemma timers_order ops s ev e1 id t e2 t0 iv id' t0' iv' :
  guarded tstep timer_discipline tinit ops -> run tstep tinit ops = Ok (s, ev) ->
  ev = e1 ++ Fired id t :: e2 ->
  Started id t0 iv ∈ e1 -> Started id' t0' iv' ∈ e1 -> id' <> id -> callbacks id' e1 = 0 ->
  (t0 + Z.of_N iv < t0' + Z.of_N iv')%Z \/
  ((t0 + Z.of_N iv = t0' + Z.of_N iv')%Z /\ (id < id')%N).
Proof.
  intros Hg Hr Heq Hs Hs' Hne Hz. destruct (timers_fire ops s ev e1 id t e2 Hg Hr Heq) as (t1 & jv & H1 & H2 & H3).
  destruct (timers_reach ops Hg) as (s' & ev' & Hr' & [T _]).
  rewrite Hr in Hr'. inversion Hr'; subst s' ev'.
  assert (He1 : forall x, x ∈ e1 -> x ∈ ev) by (intros x Hx; rewrite Heq; apply elem_of_app; by left).
  destruct (ti_stuniq _ _ T _ _ _ _ _ (He1 _ Hs) (He1 _ H1)) as [-> ->].
  eapply H3; eauto.
Qed.

Lemma timers_once ops s ev id t0 iv :
  guarded tstep timer_discipline tinit ops -> run tstep tinit ops = Ok (s, ev) ->
  Started id t0 iv ∈ ev ->
  callbacks id ev <= 1 /\
  (callbacks id ev = 0 <-> (id, (t0 + Z.of_N iv)%Z) ∈ t_nodes s /\ id ∉ frame_id <$> t_stack s).
Proof.
  intros Hg Hr Hst.
  destruct (timers_reach ops Hg) as (s' & ev' & Hr' & [T Hnd]).
  rewrite Hr in Hr'. inversion Hr'; subst s' ev'. clear Hr'. destruct T.
  destruct (ti_stlt0 _ _ _ Hst) as [Hl1 Hl2].
  destruct (decide (id ∈ (t_nodes s).*1)) as [Hin|Hnin].
  - destruct (decide (id ∈ frame_id <$> t_stack s)) as [Hs|Hns].
    + rewrite (ti_cbs0 _ Hs). split; [lia|]. split; [lia|]. intros [_ H]. done.
    + rewrite (ti_cbz0 _ Hin Hns). split; [lia|]. split; [|done]. intros _. split; [|done].
      apply elem_of_list_fmap in Hin as ([i d] & Hi & Hd). simpl in Hi. subst i.
      destruct (ti_nodedl0 _ _ Hd) as (t1 & jv & Hst1 & ->).
      destruct (ti_stuniq0 _ _ _ _ _ Hst Hst1) as [-> ->]. done.
  - rewrite (ti_cba0 _ Hl1 Hl2 Hnin). split; [lia|]. split; [lia|]. intros [H _]. exfalso. apply Hnin.
    apply elem_of_list_fmap. eexists; split; [|exact H]. done.
Qed.

Lemma timers_no_overdue ops s ev n :
  guarded tstep timer_discipline tinit ops -> run tstep tinit ops = Ok (s, ev) ->
  t_stack s = [] -> n ∈ t_nodes s -> (t_now s <= n.2)%Z.
Proof.
  intros Hg Hr Hst Hn.
  destruct (timers_reach ops Hg) as (s' & ev' & Hr' & [T Hnd]).
  rewrite Hr in Hr'. inversion Hr'; subst s' ev'. destruct T.
  destruct ti_phase0 as [[_ H]|(fs & id & d & suf & H1 & _)].
  - rewrite Forall_forall in H. auto.
  - rewrite Hst in H1. destruct fs; done.
Qed.

(** Re-entrancy while intercepting: the state after the first firing is
    reproduced, one frame deeper, by every nested start. *)
Definition rec_state (st : list frame) (nx : N) : tstate :=
  TState 10 10 true [(1%N, 5%Z)] ({[1%N]} ∪ ∅) st nx.

Lemma rec_step st nx : tstep (rec_state st nx) (OpStart 7) =
  Ok (rec_state (FUpd 1 (KStart nx 7) :: st) (N.succ nx), [Fired 1 10]).
Proof. reflexivity. Qed.

Lemma rec_run n : forall st nx, exists s' ev, run tstep (rec_state st nx) (replicate n (OpStart 7)) = Ok (s', ev) /\
  callbacks 1 ev = n /\ length (t_stack s') = n + length st.
Proof.
  induction n as [|n IH]; intros st nx.
  - simpl. eexists _, _. split; [reflexivity|]. done.
  - cbn [replicate run]. rewrite rec_step. cbn [rbind].
    destruct (IH (FUpd 1 (KStart nx 7) :: st) (N.succ nx)) as (s' & ev & -> & H1 & H2). cbn [rbind].
    eexists _, _. split; [reflexivity|]. rewrite callbacks_app, H1, H2. simpl. split; [done|lia].
Qed.

Lemma timers_recursion : exists s, forall n,
  run tstep tinit [OpStart 5; OpClock 10; OpIntercept true; OpUpdate] = Ok (s, [Started 1 0 5; Fired 1 10]) /\
  exists s' ev, run tstep s (replicate n (OpStart 7)) = Ok (s', ev) /\ callbacks 1 ev = n /\
    length (t_stack s') = S n.
Proof.
  exists (rec_state [FUpd 1 KNone] 2). intros n. split; [vm_compute; reflexivity|].
  destruct (rec_run n [FUpd 1 KNone] 2) as (s' & ev & H1 & H2 & H3).
  exists s', ev. split; [exact H1|]. split; [exact H2|]. rewrite H3. simpl. lia.
Qed.
