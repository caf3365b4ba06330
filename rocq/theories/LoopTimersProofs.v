(** Timers of the asio, ev, wx and fltk backends: proofs. *)
From stdpp Require Import base list gmap.
From Verif Require Import Base Prog LoopTimersModel LoopTimersSpec.
Open Scope N_scope.

Lemma callbacks_app id a b : callbacks id (a ++ b) = (callbacks id a + callbacks id b)%nat.
Proof. induction a as [|e a IH]; cbn; [done|]. rewrite IH. lia. Qed.

Lemma dec_iff (P Q : Prop) `{Decision P, Decision Q} {A} (x y : A) : (P <-> Q) -> (if decide P then x else y) = (if decide Q then x else y).
Proof. intros H1. destruct (decide P), (decide Q); tauto. Qed.

Record linv (b : backend) (s : lstate) (ev : list levent) : Prop := {
  li_same : l_act s = l_sup s;
  li_low : 1 <= l_next s;
  li_known : forall id, id ∈ l_sup s -> 1 <= id < l_next s;
  li_run : forall id, id ∈ running s -> id ∈ l_sup s;
  li_nodup : NoDup (running s);
  li_armed : forall id, id ∈ l_armed s -> id ∈ l_sup s /\ id ∉ running s;
  li_done : b <> Asio -> l_done s = [];
  li_dlow : forall id, id ∈ l_done s -> id < l_next s;
  li_disj : forall id, id ∈ l_armed s -> id ∉ l_done s;
  li_wait : forall id, id ∈ l_sup s -> id ∉ running s -> id ∈ l_armed s \/ id ∈ l_done s;
  li_calls : forall id, callbacks id ev =
    if decide (1 <= id < l_next s /\ ~ (id ∈ l_sup s /\ id ∉ running s)) then 1%nat else 0%nat;
  li_refs : l_refs s = if counted b then (Z.of_nat (size (l_sup s)) + Z.of_nat (own_frames s))%Z else 0%Z
}.

Lemma linv_init b : linv b linit [].
Proof. constructor; cbn; try done; try lia; try set_solver; [constructor| |by destruct b]. intros id. destruct (decide _); [lia|done]. Qed.

(** The fields of a state after add_ref, release, after_cancel and after_fire. *)
Lemma release_fields b s : l_next (release b s) = l_next s /\ l_act (release b s) = l_act s /\ l_sup (release b s) = l_sup s /\
  l_armed (release b s) = l_armed s /\ l_done (release b s) = l_done s /\ l_stack (release b s) = l_stack s /\ l_queue (release b s) = l_queue s /\
  l_refs (release b s) = (if counted b then l_refs s - 1 else l_refs s)%Z.
Proof. unfold release. by destruct (counted b). Qed.
Lemma running_release b s : running (release b s) = running s.
Proof. unfold running. by destruct (release_fields b s) as (_ & _ & _ & _ & _ & -> & _). Qed.
Lemma own_release b s : own_frames (release b s) = own_frames s.
Proof. unfold own_frames. by destruct (release_fields b s) as (_ & _ & _ & _ & _ & -> & _). Qed.

(** An event list without callbacks. *)
Lemma callbacks_quiet id ev e : Forall (fun x => match x with Fired _ | Cancelled _ => False | _ => True end) e -> callbacks id (ev ++ e) = callbacks id ev.
Proof.
  intros H. rewrite callbacks_app. enough (callbacks id e = 0%nat) as -> by lia. induction H as [|x e Hx H IH]; [done|]. cbn. rewrite IH. by destruct x.
Qed.

Lemma start_inv b s ev : linv b s ev -> linv b (start_timer b s) (ev ++ [Started (l_next s)]).
Proof.
  intros [H1 H2 H3 H4 H5 H6 H7 HL HJ H8 H9 H10].
  assert (HF : l_next (start_timer b s) = N.succ (l_next s) /\ l_act (start_timer b s) = {[l_next s]} ∪ l_act s /\ l_sup (start_timer b s) = {[l_next s]} ∪ l_sup s /\
    l_armed (start_timer b s) = {[l_next s]} ∪ l_armed s /\ l_done (start_timer b s) = l_done s /\ running (start_timer b s) = running s /\ own_frames (start_timer b s) = own_frames s /\
    l_refs (start_timer b s) = if counted b then (l_refs s + 1)%Z else l_refs s) by (unfold start_timer, add_ref, running, own_frames; by destruct (counted b)).
  destruct HF as (F1 & F2 & F3 & F4 & F5 & F6 & F7 & F8).
  assert (Hn : l_next s ∉ l_sup s) by (intros HH; apply H3 in HH; lia). assert (Hr : l_next s ∉ running s) by (intros HH; by apply H4 in HH).
  constructor; rewrite ?F1, ?F2, ?F3, ?F4, ?F5, ?F6, ?F7, ?F8; [by rewrite H1|lia| | |done| |done| | | | |].
  - intros id [->%elem_of_singleton|HH%H3]%elem_of_union; lia.
  - intros id HH. apply elem_of_union_r. auto.
  - intros id [->%elem_of_singleton|HH%H6]%elem_of_union; [by split; [apply elem_of_union_l, elem_of_singleton|]|]. split; [apply elem_of_union_r|]; tauto.
  - intros id HH. apply HL in HH. lia.
  - intros id [->%elem_of_singleton|HH]%elem_of_union; [intros HH; apply HL in HH; lia|auto].
  - intros id [->%elem_of_singleton|HH]%elem_of_union HR; [left; by apply elem_of_union_l, elem_of_singleton|]. destruct (H8 _ HH HR); [left; by apply elem_of_union_r|by right].
  - intros id. rewrite callbacks_quiet, H9 by (repeat constructor). destruct (decide (id = l_next s)) as [->|Hne].
    + rewrite decide_False by lia. rewrite decide_False; [done|]. intros [_ HH]. apply HH. split; [by apply elem_of_union_l, elem_of_singleton|done].
    + apply dec_iff. rewrite elem_of_union, elem_of_singleton. split; intros [HA HB]; (split; [lia|]); intros [HC HD]; apply HB; (split; [|done]); [by destruct HC|by right].
  - rewrite H10. destruct (counted b); [|done]. rewrite size_union by set_solver. rewrite size_singleton. lia.
Qed.

Lemma do_cancel_inv b s ev id : linv b s ev -> id ∈ l_sup s -> id ∉ running s -> exists s' e, do_cancel_timer b s id = Ok (s', e) /\ linv b s' (ev ++ e) /\ e = [Cancelled id] /\ l_stack s' = FCancel id :: l_stack s.
Proof.
  intros [H1 H2 H3 H4 H5 H6 H7 HL HJ H8 H9 H10] Hs Hr. unfold do_cancel_timer. rewrite bool_decide_eq_true_2 by done. cbn. rewrite bool_decide_eq_true_2 by (by rewrite H1).
  eexists _, _. split; [done|]. split; [|done].
  assert (HR : running (set_stack (set_armed s (l_armed s ∖ {[id]})) (FCancel id :: l_stack s)) = id :: running s) by done.
  constructor; rewrite ?HR; cbn; try done.
  - intros i [->|?]%elem_of_cons; auto.
  - by constructor.
  - intros i [HA HB]%elem_of_difference. destruct (H6 _ HA) as [HC HD]. split; [done|]. intros [->|?]%elem_of_cons; [by apply HB, elem_of_singleton|done].
  - intros i [HA HB]%elem_of_difference. auto.
  - intros i HA [HB HC]%not_elem_of_cons. destruct (H8 i HA HC); [left|by right]. apply elem_of_difference. split; [done|]. by rewrite elem_of_singleton.
  - intros i. rewrite callbacks_app, H9. cbn. rewrite Nat.add_0_r. destruct (decide (id = i)) as [->|Hne].
    + rewrite decide_False by (intros [_ HH]; by apply HH). rewrite decide_True; [done|]. split; [by apply H3|]. intros [_ HH]. apply HH. by left.
    + rewrite Nat.add_0_r. apply dec_iff. rewrite elem_of_cons. split; intros [HA HB]; (split; [done|]); intros [HC HD]; apply HB; (split; [done|]); [by intros HE; apply HD; right|]. intros [->|?]; [done|by apply HD].
Qed.

Lemma fire_inv b s ev id armed' done' : linv b s ev -> id ∈ l_sup s -> id ∉ running s ->
  (forall i, i ∈ armed' -> i ∈ l_armed s /\ i <> id) -> (forall i, i <> id -> i ∈ l_armed s -> i ∈ armed') ->
  (forall i, i ∈ done' -> i ∈ l_done s) -> (forall i, i <> id -> i ∈ l_done s -> i ∈ done') -> (b <> Asio -> done' = []) ->
  exists s', fire b (set_done (set_armed s armed') done') id = Ok (s', [Fired id]) /\ linv b s' (ev ++ [Fired id]) /\
    s' = set_stack (set_done (set_armed s armed') done') (FFire id :: l_stack s).
Proof.
  intros [H1 H2 H3 H4 H5 H6 H7 HL HJ H8 H9 H10] Hs Hr A1 A2 A3 A4 A5. unfold fire. cbn. rewrite bool_decide_eq_true_2 by done. rewrite bool_decide_eq_true_2 by (by rewrite H1).
  eexists. split; [done|]. split; [|done].
  assert (HR : running (set_stack (set_done (set_armed s armed') done') (FFire id :: l_stack s)) = id :: running s) by done.
  constructor; rewrite ?HR; cbn; try done.
  - intros i [->|?]%elem_of_cons; auto.
  - by constructor.
  - intros i [HA HB]%A1. destruct (H6 _ HA) as [HC HD]. split; [done|]. by intros [->|?]%elem_of_cons.
  - intros i HA. auto.
  - intros i [HA HB]%A1 HC%A3. by apply (HJ i).
  - intros i HA [HB HC]%not_elem_of_cons. destruct (H8 i HA HC); [left|right]; auto.
  - intros i. rewrite callbacks_app, H9. cbn. rewrite Nat.add_0_r. destruct (decide (id = i)) as [->|Hne].
    + rewrite decide_False by (intros [_ HH]; by apply HH). rewrite decide_True; [done|]. split; [by apply H3|]. intros [_ HH]. apply HH. by left.
    + rewrite Nat.add_0_r. apply dec_iff. rewrite elem_of_cons. split; intros [HA HB]; (split; [done|]); intros [HC HD]; apply HB; (split; [done|]); [by intros HE; apply HD; right|]. intros [->|?]; [done|by apply HD].
Qed.

(** A callback has returned: the timer is forgotten by both. *)
Lemma forget_inv b s ev id f st : linv b s ev -> l_stack s = f :: st -> frame_id f = Some id ->
  let s1 := set_sup (set_act (set_stack s st) (l_act s ∖ {[id]})) (l_sup s ∖ {[id]}) in
  linv b (release b s1) ev /\ linv b (set_stack s1 (FProc true :: st)) ev.
Proof.
  intros [H1 H2 H3 H4 H5 H6 H7 HL HJ H8 H9 H10] Hst Hf s1.
  assert (HR : running s = id :: omap frame_id st) by (unfold running; rewrite Hst; cbn; by rewrite Hf). rewrite HR in *.
  assert (Hid : id ∈ l_sup s) by (apply H4; by left). apply NoDup_cons in H5 as [Hn H5].
  assert (HO : own_frames s = own_frames s1) by (unfold own_frames; rewrite Hst; destruct f; cbn; [done..|by cbn in Hf]).
  assert (Hsz : (Z.of_nat (size (l_sup s)) - 1 = Z.of_nat (size (l_sup s ∖ {[id]})))%Z).
  { rewrite size_difference by set_solver. rewrite size_singleton. assert (size (l_sup s) <> 0%nat) by (intros E; apply size_empty_inv in E; set_solver). lia. }
  assert (HW : forall s', l_next s' = l_next s -> l_act s' = l_act s1 -> l_sup s' = l_sup s1 -> l_armed s' = l_armed s -> l_done s' = l_done s -> running s' = omap frame_id st ->
    l_refs s' = (if counted b then (Z.of_nat (size (l_sup s1)) + Z.of_nat (own_frames s'))%Z else 0%Z) -> linv b s' ev).
  { intros s' E1 E2 E3 E4 E5 E6 E7. constructor; rewrite ?E1, ?E2, ?E3, ?E4, ?E5, ?E6; cbn; try done.
    - by rewrite H1.
    - intros i [HA _]%elem_of_difference. auto.
    - intros i HA. apply elem_of_difference. split; [apply H4; by right|]. intros ->%elem_of_singleton. done.
    - intros i HA%H6. destruct HA as [HA [HB HC]%not_elem_of_cons]. split; [|done]. apply elem_of_difference. by rewrite elem_of_singleton.
    - intros i [HA HB]%elem_of_difference HC. apply H8; [done|]. apply not_elem_of_cons. split; [|done]. intros ->. by apply HB, elem_of_singleton.
    - intros i. rewrite H9. apply dec_iff. rewrite elem_of_cons, elem_of_difference, elem_of_singleton. split; intros [HA HB]; (split; [done|]); intros [HC HD]; apply HB.
      + destruct HC as [HC HE]. split; [done|]. by intros [->|?].
      + split; [split; [done|]|]; [intros ->; apply HD; by left|]. intros HE. apply HD. by right. }
  split; apply HW; try (by destruct (release_fields b s1) as (? & ? & ? & ? & ? & ? & ? & ?)).
  - rewrite running_release. done.
  - rewrite own_release. destruct (release_fields b s1) as (_ & _ & _ & _ & _ & _ & _ & ->). change (l_refs s1) with (l_refs s). rewrite H10, HO. destruct (counted b); [|done]. change (l_sup s1) with (l_sup s ∖ {[id]}). lia.
  - change (l_refs _) with (l_refs s). rewrite H10, HO. destruct (counted b); [|done]. change (l_sup s1) with (l_sup s ∖ {[id]}).
    replace (own_frames (set_stack s1 (FProc true :: st))) with (S (own_frames s1)) by done. lia.
Qed.

Lemma lstep_inv b s ev o : linv b s ev -> disciplined s o -> exists s' e, lstep b s o = Ok (s', e) /\ linv b s' (ev ++ e).
Proof.
  intros HI Ho. pose proof HI as [H1 H2 H3 H4 H5 H6 H7 HL HJ H8 H9 H10]. destruct o; cbn in Ho |- *.
  - eexists _, _. split; [done|]. by apply start_inv.
  - rewrite bool_decide_eq_true_2 by tauto. destruct Ho as [Ho Hr]. rewrite H1 in Ho. destruct (do_cancel_inv b s ev id HI Ho Hr) as (s' & e & ? & ? & ?). eauto.
  - destruct Ho as [Ho Hr]. destruct (do_cancel_inv b s ev id HI Ho Hr) as (s' & e & ? & ? & ?). eauto.
  - case_bool_decide as Ha; [|eexists _, _; split; [done|by rewrite app_nil_r]]. destruct (H6 _ Ha) as [Hs Hr].
    destruct (decide (b = Asio)) as [->|Hb].
    + eexists _, _. split; [done|]. rewrite app_nil_r. constructor; cbn; try done.
      * intros i [HA HB]%elem_of_difference. auto.
      * intros i [HA| ->%elem_of_list_singleton]%elem_of_app; [auto|]. by apply H3.
      * intros i [HA HB]%elem_of_difference. rewrite not_elem_of_app. split; [auto|]. intros ->%elem_of_list_singleton. by apply HB, elem_of_singleton.
      * intros i HA HB. rewrite elem_of_app, elem_of_list_singleton, elem_of_difference, elem_of_singleton. destruct (H8 i HA HB); [|tauto]. destruct (decide (i = id)); tauto.
    + assert (Hst : l_stack s = [] \/ l_stack s <> []) by (destruct (l_stack s); [by left|by right]). destruct Hst as [Hst|Hst].
      * destruct (fire_inv b s ev id (l_armed s ∖ {[id]}) (l_done s) HI Hs Hr) as (s' & E & HI' & _); [set_solver|set_solver|auto|auto|done|].
        exists s', [Fired id]. split; [|done]. rewrite Hst. destruct b; [done|exact E..].
      * exists s, []. rewrite app_nil_r. split; [|done]. destruct b; [done|by destruct (l_stack s)..].
  - destruct (l_stack s) as [|f st] eqn:Hst; [|eexists _, _; split; [done|by rewrite app_nil_r]]. destruct (l_done s) as [|id rest] eqn:Hd; [eexists _, _; split; [done|by rewrite app_nil_r]|].
    assert (Hb : b = Asio) by (destruct (decide (b = Asio)); [done|]; discriminate (H7 ltac:(done))). subst b.
    destruct (decide (id ∈ l_sup s)) as [Hs|Hs].
    + destruct (fire_inv Asio s ev id (l_armed s) rest HI Hs) as (s' & E & HI' & _).
      * unfold running. by rewrite Hst; apply not_elem_of_nil.
      * intros i HA. split; [done|]. intros ->. apply (HJ _ HA). by left.
      * done.
      * rewrite Hd. intros i HA. by right.
      * rewrite Hd. intros i HA [?|?]%elem_of_cons; done.
      * done.
      * exists s', [Fired id]. split; [exact E|done].
    + unfold fire. cbn. rewrite bool_decide_eq_false_2 by done. eexists _, _. split; [done|]. rewrite app_nil_r. unfold release. cbn. constructor; cbn; try done.
      * intros i HA. apply HL. by right.
      * intros i HA HB. apply (HJ _ HA). by right.
      * intros i HA HB. destruct (H8 i HA HB) as [?|[->|?]%elem_of_cons]; [by left|done|by right].
  - destruct (l_stack s) as [|f st] eqn:Hst; [eexists _, _; split; [done|by rewrite app_nil_r]|]. destruct f as [id|id|own].
    + destruct (forget_inv b s ev id _ st HI Hst eq_refl) as [F1 F2]. assert (id ∈ l_act s) by (rewrite H1; apply H4; unfold running; rewrite Hst; by left). rewrite bool_decide_eq_true_2 by done.
      eexists _, _. split; [done|]. rewrite app_nil_r. unfold after_fire. destruct b; done.
    + destruct (forget_inv b s ev id _ st HI Hst eq_refl) as [F1 F2]. assert (id ∈ l_act s) by (rewrite H1; apply H4; unfold running; rewrite Hst; by left). rewrite bool_decide_eq_true_2 by done.
      eexists _, _. split; [done|]. rewrite app_nil_r. done.
    + destruct (l_queue s) as [|m q] eqn:Hq; [|eexists _, _; split; [done|by rewrite app_nil_r]]. eexists _, _. split; [done|]. rewrite app_nil_r.
      assert (HR : running s = omap frame_id st) by (unfold running; by rewrite Hst). rewrite HR in *.
      assert (HW : forall s', l_next s' = l_next s -> l_act s' = l_act s -> l_sup s' = l_sup s -> l_armed s' = l_armed s -> l_done s' = l_done s -> l_stack s' = st ->
        l_refs s' = (if counted b then (Z.of_nat (size (l_sup s)) + Z.of_nat (own_frames s'))%Z else 0%Z) -> linv b s' ev).
      { intros s' E1 E2 E3 E4 E5 E6 E7. assert (E8 : running s' = omap frame_id st) by (unfold running; by rewrite E6). constructor; rewrite ?E1, ?E2, ?E3, ?E4, ?E5, ?E8; done. }
      destruct own.
      * destruct (release_fields b (set_stack s st)) as (? & ? & ? & ? & ? & ? & ? & E). apply HW; try done. rewrite own_release, E.
        assert (EO : own_frames s = S (own_frames (set_stack s st))) by (unfold own_frames; by rewrite Hst).
        change (l_refs (set_stack s st)) with (l_refs s). rewrite H10, EO. destruct (counted b); [lia|done].
      * apply HW; try done. cbn. rewrite H10. destruct (counted b); [|done]. unfold own_frames. by rewrite Hst.
  - eexists _, _. split; [done|]. constructor; try done. intros id. rewrite callbacks_quiet, H9 by (repeat constructor). done.
  - destruct (l_stack s) as [|f st] eqn:Hst; [|eexists _, _; split; [done|by rewrite app_nil_r]]. eexists _, _. split; [done|]. rewrite app_nil_r.
    assert (HR : running (set_stack s [FProc false]) = running s) by (unfold running; by rewrite Hst). constructor; rewrite ?HR; try done. cbn. rewrite H10. unfold own_frames. by rewrite Hst.
  - destruct (l_stack s) as [|[]] eqn:Hst; try (eexists _, _; split; [done|by rewrite app_nil_r]). destruct (l_queue s) as [|m q] eqn:Hq; [eexists _, _; split; [done|by rewrite app_nil_r]|].
    eexists _, _. split; [done|]. constructor; try done. intros id. rewrite callbacks_quiet, H9 by (repeat constructor). done.
Qed.

Lemma l_inv b ops s ev : guarded (lstep b) disciplined linit ops -> run (lstep b) linit ops = Ok (s, ev) -> linv b s ev.
Proof.
  intros Hg H. refine (run_inv_ev (lstep b) disciplined (linv b) _ ops linit [] s ev _ Hg H); [|apply linv_init].
  intros s0 ev0 o s' e HI Ho Hs. destruct (lstep_inv b s0 ev0 o HI Ho) as (s1 & e1 & E & ?). rewrite E in Hs. by injection Hs as <- <-.
Qed.
Lemma l_safe b ops : guarded (lstep b) disciplined linit ops -> exists s ev, run (lstep b) linit ops = Ok (s, ev).
Proof.
  intros Hg. destruct (run_safe_ev (lstep b) disciplined (linv b)) with (ops := ops) (s := linit) (ev := @nil levent) as (s & e & ? & ?); [|apply linv_init|done|eauto].
  intros s ev o HI Ho. by apply lstep_inv.
Qed.
Lemma started_low b s ev o s' e : (forall id, Started id ∈ ev <-> 1 <= id < l_next s) -> 1 <= l_next s -> lstep b s o = Ok (s', e) ->
  (forall id, Started id ∈ ev ++ e <-> 1 <= id < l_next s') /\ 1 <= l_next s'.
Proof.
  intros HS Hl H.
  assert (HQ : (forall id, Started id ∉ e) -> l_next s' = l_next s -> (forall id, Started id ∈ ev ++ e <-> 1 <= id < l_next s') /\ 1 <= l_next s').
  { intros HE ->. split; [|done]. intros id. rewrite elem_of_app, HS. split; [by intros [?|?%HE]|by left]. }
  assert (Hc : forall s0 id, do_cancel_timer b s0 id = Ok (s', e) -> l_next s0 = l_next s -> (forall id, Started id ∉ e) /\ l_next s' = l_next s).
  { intros s0 id HH <-. unfold do_cancel_timer, after_cancel in HH. repeat case_match; simplify_eq; (split; [intros i; rewrite ?elem_of_list_singleton; (done || apply not_elem_of_nil)|]); try done. by destruct (release_fields b (set_sup (set_armed s0 (l_armed s0 ∖ {[id]})) (l_sup s0 ∖ {[id]}))) as [-> _]. }
  assert (HA : forall s0 id, l_next (after_fire b s0 id) = l_next s0) by (intros s0 id; unfold after_fire; destruct b; done).
  assert (HB : forall s0 id, l_next (after_cancel b s0 id) = l_next s0) by (intros s0 id; unfold after_cancel; by destruct (release_fields b (set_sup s0 (l_sup s0 ∖ {[id]}))) as [-> _]).
  assert (Hf : forall s0 id, fire b s0 id = Ok (s', e) -> l_next s0 = l_next s -> (forall id, Started id ∉ e) /\ l_next s' = l_next s).
  { intros s0 id HH <-. unfold fire in HH. repeat case_match; simplify_eq; (split; [intros i; rewrite ?elem_of_list_singleton; (done || apply not_elem_of_nil)|]); try done. by destruct (release_fields b s0) as [-> _]. }
  destruct o; cbn in H.
  - injection H as <- <-. assert (E : l_next (start_timer b s) = N.succ (l_next s)) by (unfold start_timer, add_ref; by destruct (counted b)). rewrite E. split; [|lia].
    intros id. rewrite elem_of_app, HS, elem_of_list_singleton. split; [intros [?|[= ->]]; lia|]. intros ?. destruct (decide (id = l_next s)) as [->|]; [by right|left; lia].
  - case_bool_decide; [|done]. destruct (Hc _ _ H eq_refl). by apply HQ.
  - destruct (Hc _ _ H eq_refl). by apply HQ.
  - case_bool_decide; [|injection H as <- <-; apply HQ; [|done]; intros ? []%elem_of_nil].
    destruct b; [injection H as <- <-; apply HQ; [|done]; intros ? []%elem_of_nil|..]; (destruct (l_stack s); [destruct (Hf _ _ H eq_refl); by apply HQ|injection H as <- <-; apply HQ; [|done]; intros ? []%elem_of_nil]).
  - destruct (l_stack s); [destruct (l_done s)|]; [injection H as <- <-; apply HQ; [|done]; intros ? []%elem_of_nil|destruct (Hf _ _ H eq_refl); by apply HQ|injection H as <- <-; apply HQ; [|done]; intros ? []%elem_of_nil].
  - destruct (l_stack s) as [|[id|id|own] st]; [injection H as <- <-; apply HQ; [|done]; intros ? []%elem_of_nil|..].
    + case_bool_decide; [|done]. injection H as <- <-. apply HQ; [intros ? []%elem_of_nil|]. by rewrite HA.
    + case_bool_decide; [|done]. injection H as <- <-. apply HQ; [intros ? []%elem_of_nil|]. by rewrite HB.
    + destruct (l_queue s); injection H as <- <-; (apply HQ; [intros ? []%elem_of_nil|]); [|done]. destruct own; [|done]. by destruct (release_fields b (set_stack s st)) as [-> _].
  - injection H as <- <-. apply HQ; [|done]. by intros ? ?%elem_of_list_singleton.
  - destruct (l_stack s); injection H as <- <-; (apply HQ; [|done]; intros ? []%elem_of_nil).
  - destruct (l_stack s) as [|[]]; [| | |destruct (l_queue s)]; injection H as <- <-; (apply HQ; [|done]); [intros ? []%elem_of_nil..|by intros ? ?%elem_of_list_singleton].
Qed.
Lemma l_started b ops s ev id : run (lstep b) linit ops = Ok (s, ev) -> Started id ∈ ev <-> 1 <= id < l_next s.
Proof.
  intros H. refine (proj1 (_ : (forall id, Started id ∈ ev <-> 1 <= id < l_next s) /\ 1 <= l_next s) id).
  refine (run_inv_ev (lstep b) (fun _ _ => True) (fun s ev => (forall id, Started id ∈ ev <-> 1 <= id < l_next s) /\ 1 <= l_next s) _ ops linit [] s ev _ _ H).
  - intros s0 ev0 o s' e [HA HB] _ Hs. by eapply started_low.
  - cbn. split; [|lia]. intros i. split; [intros []%elem_of_nil|lia].
  - apply guarded_true.
Qed.
(** A timer is called back at most once, and not at all exactly while it waits. *)
Lemma l_once b ops s ev id : guarded (lstep b) disciplined linit ops -> run (lstep b) linit ops = Ok (s, ev) -> Started id ∈ ev ->
  (callbacks id ev <= 1)%nat /\ (callbacks id ev = 0%nat <-> id ∈ l_sup s /\ id ∉ running s).
Proof.
  intros Hg H Hs. pose proof (l_inv _ _ _ _ Hg H) as HI. apply (l_started _ _ _ _ _ H) in Hs. rewrite (li_calls _ _ _ HI).
  destruct (decide (id ∈ l_sup s ∧ id ∉ running s)); [rewrite decide_False by tauto|rewrite decide_True by tauto]; (split; [lia|]); tauto || (split; [lia|tauto]).
Qed.
Lemma l_waits b ops s ev id : guarded (lstep b) disciplined linit ops -> run (lstep b) linit ops = Ok (s, ev) -> Started id ∈ ev ->
  callbacks id ev = 0%nat -> id ∈ l_armed s \/ b = Asio /\ id ∈ l_done s.
Proof.
  intros Hg H Hs H0. pose proof (l_inv _ _ _ _ Hg H) as HI. apply (l_once _ _ _ _ _ Hg H Hs) in H0 as [HA HB]. destruct (li_wait _ _ _ HI _ HA HB) as [?|Hd]; [by left|].
  right. split; [|done]. destruct (decide (b = Asio)); [done|]. rewrite (li_done _ _ _ HI) in Hd by done. by apply elem_of_nil in Hd.
Qed.
(** Never called back after it was cancelled (or fired). *)
Lemma l_never_again b ops s ev id e1 e2 x : guarded (lstep b) disciplined linit ops -> run (lstep b) linit ops = Ok (s, ev) ->
  ev = e1 ++ x :: e2 -> x = Fired id \/ x = Cancelled id -> Fired id ∉ e2 /\ Cancelled id ∉ e2.
Proof.
  intros Hg H -> Hx. pose proof (li_calls _ _ _ (l_inv _ _ _ _ Hg H) id) as HC.
  rewrite callbacks_app in HC. cbn in HC. assert (calls id x = 1%nat) as E by (destruct Hx as [-> | ->]; cbn; by rewrite decide_True).
  rewrite E in HC. assert (H2 : callbacks id e2 = 0%nat) by (destruct (decide _); lia). clear -H2.
  induction e2 as [|y e2 IH]; [by split; apply not_elem_of_nil|]. cbn in H2. destruct IH as [I1 I2]; [lia|].
  split; (intros [<-|?]%elem_of_cons; [|done]); cbn in H2; rewrite decide_True in H2 by done; lia.
Qed.
Lemma l_refs_ok b ops s ev : guarded (lstep b) disciplined linit ops -> run (lstep b) linit ops = Ok (s, ev) ->
  l_refs s = if counted b then (Z.of_nat (size (l_sup s)) + Z.of_nat (own_frames s))%Z else 0%Z.
Proof. intros Hg H. apply (li_refs _ _ _ (l_inv _ _ _ _ Hg H)). Qed.

(** ** The queue is processed *)
Definition is_cancel (f : frame) : Prop := match f with FCancel _ => True | _ => False end.
Definition shape (s : lstate) : Prop :=
  match l_stack s with
  | [] => l_queue s = []
  | st => exists cs x, st = cs ++ [x] /\ Forall is_cancel cs /\ ~ is_cancel x
  end.
Lemma shape_top f st s : l_stack s = f :: st -> shape s -> (~ is_cancel f -> st = []) /\ (is_cancel f -> st <> []).
Proof.
  unfold shape. intros -> (cs & x & E & Hc & Hx). destruct cs as [|c cs]; [injection E as -> ->; done|]. injection E as -> ->. inversion Hc; subst. split; [done|]. by destruct cs.
Qed.
Lemma shape_one s x : ~ is_cancel x -> l_stack s = [x] -> shape s.
Proof. intros Hx E. unfold shape. rewrite E. by exists [], x. Qed.
Lemma shape_push s f st s' : shape s -> l_stack s = f :: st -> forall id, l_stack s' = FCancel id :: f :: st -> shape s'.
Proof.
  unfold shape. intros H E id E'. rewrite E in H. rewrite E'. destruct H as (cs & x & Hc & Hf & Hx). exists (FCancel id :: cs), x. split; [by rewrite Hc|]. split; [by constructor|done].
Qed.
Lemma shape_pop s id st s' : shape s -> l_stack s = FCancel id :: st -> l_stack s' = st -> shape s'.
Proof.
  intros H E E'. pose proof (proj2 (shape_top _ _ _ E H) I) as Hn. unfold shape in *. rewrite E in H. rewrite E'. destruct st; [done|].
  destruct H as (cs & x & Hc & Hf & Hx). destruct cs as [|c cs]; [injection Hc as Hc1 Hc2; by destruct (Hn)|]. injection Hc as <- ->. inversion Hf; subst. by exists cs, x.
Qed.
Lemma shape_same s s' : shape s -> l_stack s' = l_stack s -> (l_stack s = [] -> l_queue s' = l_queue s) -> shape s'.
Proof. unfold shape. intros H E E'. rewrite E. destruct (l_stack s); [by rewrite E'|done]. Qed.
Lemma shape_step b s o s' e : b <> Fltk -> shape s -> inside s o -> lstep b s o = Ok (s', e) -> shape s'.
Proof.
  intros Hb HS Ho H.
  assert (Hc : forall id, l_stack s <> [] -> do_cancel_timer b s id = Ok (s', e) -> shape s').
  { intros id Hn HH. unfold do_cancel_timer, after_cancel in HH. destruct (l_stack s) as [|f st] eqn:Hst; [done|].
    case_bool_decide; [case_bool_decide|destruct b; [done|injection HH as <- <-; done..]]; injection HH as <- <-.
    - eapply shape_push; [exact HS|exact Hst|]. cbn. by rewrite Hst.
    - destruct (release_fields b (set_sup (set_armed s (l_armed s ∖ {[id]})) (l_sup s ∖ {[id]}))) as (_ & _ & _ & _ & _ & E1 & E2 & _). eapply shape_same; [exact HS|exact E1|by intros _]. }
  assert (Hf : forall s0 id, l_stack s0 = [] -> l_stack s = [] -> l_queue s0 = l_queue s -> fire b s0 id = Ok (s', e) -> shape s').
  { intros s0 id E0 Es E1 HH. unfold fire in HH. case_bool_decide; [case_bool_decide|]; injection HH as <- <-.
    - eapply (shape_one _ (FFire id)); [by intros []|]. cbn. by rewrite E0.
    - unfold after_fire. destruct b; try done; (apply (shape_one _ (FProc true)); [by intros []|]; cbn; by rewrite E0).
    - destruct (release_fields b s0) as (_ & _ & _ & _ & _ & E2 & E3 & _). eapply shape_same; [exact HS|by rewrite E2, E0|intros _; by rewrite E3]. }
  destruct o; cbn in H, Ho.
  - injection H as <- <-. eapply shape_same; [exact HS|..]; unfold start_timer, add_ref; by destruct (counted b).
  - case_bool_decide; [|done]. by eapply Hc.
  - by eapply Hc.
  - case_bool_decide; [|by injection H as <- <-]. destruct b; [injection H as <- <-; by eapply shape_same|..];
      (destruct (l_stack s) eqn:Hst; [eapply Hf; [| | |exact H]; done|by injection H as <- <-]).
  - destruct (l_stack s) eqn:Hst; [|by injection H as <- <-]. destruct (l_done s); [by injection H as <- <-|]. eapply Hf; [| | |exact H]; done.
  - destruct (l_stack s) as [|[id|id|own] st] eqn:Hst; [by injection H as <- <-|..].
    + case_bool_decide; [|done]. injection H as <- <-. pose proof (proj1 (shape_top _ _ _ Hst HS) (fun x => x)) as ->.
      unfold after_fire. destruct b; try done; (apply (shape_one _ (FProc true)); [by intros []|done]).
    + case_bool_decide; [|done]. injection H as <- <-. eapply shape_pop; [exact HS|exact Hst|].
      unfold after_cancel. by destruct (release_fields b (set_sup (set_act (set_stack s st) (l_act s ∖ {[id]})) (l_sup (set_act (set_stack s st) (l_act s ∖ {[id]})) ∖ {[id]}))) as (_ & _ & _ & _ & _ & -> & _).
    + pose proof (proj1 (shape_top _ _ _ Hst HS) (fun x => x)) as ->. destruct (l_queue s) eqn:Hq; injection H as <- <-; [|done].
      unfold shape. destruct own; [|done]. destruct (release_fields b (set_stack s [])) as (_ & _ & _ & _ & _ & -> & -> & _). done.
  - injection H as <- <-. by eapply shape_same.
  - destruct (l_stack s) eqn:Hst; injection H as <- <-; [|done]. apply (shape_one _ (FProc false)); [by intros []|done].
  - destruct (l_stack s) as [|[id|id|own] st] eqn:Hst; [by injection H as <- <-|by injection H as <- <-|by injection H as <- <-|].
    destruct (l_queue s); injection H as <- <-; [done|]. eapply shape_same; [exact HS|done|by rewrite Hst].
Qed.
Lemma l_processed b ops s ev : b <> Fltk -> guarded (lstep b) inside linit ops -> run (lstep b) linit ops = Ok (s, ev) -> l_stack s = [] -> l_queue s = [].
Proof.
  intros Hb Hg H Hst. enough (shape s) as HS by (unfold shape in HS; by rewrite Hst in HS).
  refine (run_inv_ev (lstep b) inside (fun s _ => shape s) _ ops linit [] s ev _ Hg H); [|done].
  intros s0 ev0 o s' e HS Ho Hs. by eapply shape_step.
Qed.

(** ** A waiting timer fires *)
Lemma run_cons_ok b s o s1 e1 l s2 e2 : lstep b s o = Ok (s1, e1) -> run (lstep b) s1 l = Ok (s2, e2) -> run (lstep b) s (o :: l) = Ok (s2, e1 ++ e2).
Proof. intros H1 H2. cbn. by rewrite H1; cbn; rewrite H2. Qed.
Lemma drain b q : forall s, l_stack s = [FProc true] -> l_queue s = q ->
  exists l s' e, run (lstep b) s l = Ok (s', e) /\ Forall loop_op l /\ l_stack s' = [] /\ l_sup s' = l_sup s /\ l_done s' = l_done s.
Proof.
  induction q as [|m q IH]; intros s Hst Hq.
  - exists [LReturn]. eexists _, _. split; [cbn; rewrite Hst, Hq; reflexivity|]. split; [by repeat constructor|]. by destruct (release_fields b (set_stack s [])) as (_ & _ & -> & _ & -> & -> & _).
  - destruct (IH (set_queue s q)) as (l & s' & e & Hr & Hl & E1 & E2 & E3); [done|done|]. exists (LDispatch :: l), s'. eexists. split; [|split; [by constructor|done]].
    eapply run_cons_ok; [|exact Hr]. cbn. by rewrite Hst, Hq.
Qed.
Lemma run_inv_from b l : forall s s' e ev, linv b s ev -> Forall loop_op l -> run (lstep b) s l = Ok (s', e) -> linv b s' (ev ++ e).
Proof.
  induction l as [|o l IH]; intros s s' e ev HI Hl H; cbn in H; [injection H as <- <-; by rewrite app_nil_r|]. inversion Hl as [|? ? Ho Hl']; subst.
  destruct (lstep_inv b s ev o HI) as (s1 & e1 & E & HI1); [by destruct o|]. rewrite E in H. cbn in H. destruct (run (lstep b) s1 l) as [[s2 e2]| |] eqn:Er; cbn in H; [|done..]. injection H as <- <-.
  rewrite app_assoc. by eapply IH.
Qed.
Lemma run_app_ok b s l1 s1 e1 l2 s2 e2 : run (lstep b) s l1 = Ok (s1, e1) -> run (lstep b) s1 l2 = Ok (s2, e2) -> run (lstep b) s (l1 ++ l2) = Ok (s2, e1 ++ e2).
Proof. intros H1 H2. rewrite run_app, H1. cbn. by rewrite H2. Qed.
Lemma strand_fires pre : forall s ev id post, linv Asio s ev -> l_stack s = [] -> l_done s = pre ++ id :: post -> id ∈ l_sup s ->
  exists l s' e, run (lstep Asio) s l = Ok (s', e) /\ Forall loop_op l /\ Fired id ∈ e.
Proof.
  induction pre as [|j pre IH]; intros s ev id post HI Hst Hd Hid.
  - exists [LStrand]. eexists _, _. split; [|split; [by repeat constructor|]].
    + cbn. rewrite Hst, Hd. cbn. unfold fire. cbn. rewrite bool_decide_eq_true_2 by done. rewrite bool_decide_eq_true_2 by (by rewrite (li_same _ _ _ HI)). reflexivity.
    + by left.
  - assert (HS : lstep Asio s LStrand = fire Asio (set_done s (pre ++ id :: post)) j) by (cbn; by rewrite Hst, Hd).
    destruct (decide (j ∈ l_sup s)) as [Hj|Hj].
    + assert (E : lstep Asio s LStrand = Ok (set_stack (set_done s (pre ++ id :: post)) (FFire j :: l_stack s), [Fired j])).
      { rewrite HS. unfold fire. cbn. rewrite bool_decide_eq_true_2 by done. by rewrite bool_decide_eq_true_2 by (by rewrite (li_same _ _ _ HI)). }
      destruct (decide (j = id)) as [->|Hne]; [exists [LStrand]; eexists _, _; split; [|split; [by repeat constructor|]]; [cbn [run]; rewrite E; reflexivity|by left]|].
      set (s1 := set_stack (set_done s (pre ++ id :: post)) (FFire j :: l_stack s)) in *.
      assert (E2 : lstep Asio s1 LReturn = Ok (after_fire Asio (set_act (set_stack s1 (l_stack s)) (l_act s ∖ {[j]})) j, [])).
      { cbn. by rewrite bool_decide_eq_true_2 by (by rewrite (li_same _ _ _ HI)). }
      set (s2 := after_fire Asio (set_act (set_stack s1 (l_stack s)) (l_act s ∖ {[j]})) j) in *.
      destruct (drain Asio (l_queue s2) s2) as (l & s3 & e3 & Hr & Hl & E3 & E4 & E5); [cbn; by rewrite Hst|done|].
      pose proof (run_cons_ok _ _ _ _ _ _ _ _ E (run_cons_ok _ _ _ _ _ _ _ _ E2 Hr)) as HR.
      assert (HI3 : linv Asio s3 (ev ++ ([Fired j] ++ [] ++ e3))) by (eapply (run_inv_from _ _ s); [done| |exact HR]; by repeat constructor).
      destruct (IH s3 _ id post HI3 E3) as (l' & s' & e' & Hr' & Hl' & He'); [by rewrite E5|rewrite E4; cbn; set_solver|].
      exists ((LStrand :: LReturn :: l) ++ l'), s'. eexists. split; [by eapply run_app_ok|]. split; [apply Forall_app; split; [by repeat constructor|done]|]. by apply elem_of_app; right.
    + assert (E : lstep Asio s LStrand = Ok (set_done s (pre ++ id :: post), [])).
      { rewrite HS. unfold fire. cbn. by rewrite bool_decide_eq_false_2 by done. }
      assert (HI2 : linv Asio (set_done s (pre ++ id :: post)) (ev ++ [])).
      { destruct (lstep_inv Asio s ev LStrand HI I) as (s1 & e1 & E1 & HI1). rewrite E in E1. by injection E1 as <- <-. }
      destruct (IH _ _ id post HI2 Hst eq_refl Hid) as (l' & s' & e' & Hr' & Hl' & He').
      exists (LStrand :: l'), s'. eexists. split; [by eapply run_cons_ok|]. split; [by constructor|done].
Qed.
Lemma l_fires b ops s ev id : guarded (lstep b) disciplined linit ops -> run (lstep b) linit ops = Ok (s, ev) -> Started id ∈ ev ->
  callbacks id ev = 0%nat -> l_stack s = [] -> exists l s' e, run (lstep b) s l = Ok (s', e) /\ Forall loop_op l /\ Fired id ∈ e.
Proof.
  intros Hg H Hs H0 Hst. pose proof (l_inv _ _ _ _ Hg H) as HI. pose proof (proj1 (proj2 (l_once _ _ _ _ _ Hg H Hs)) H0) as [Hid Hr].
  destruct (l_waits _ _ _ _ _ Hg H Hs H0) as [Ha|[-> Hd]].
  - destruct (decide (b = Asio)) as [->|Hb].
    + assert (E : lstep Asio s (LExpire id) = Ok (set_done (set_armed s (l_armed s ∖ {[id]})) (l_done s ++ [id]), [])) by (cbn; by rewrite bool_decide_eq_true_2).
      destruct (lstep_inv Asio s ev (LExpire id) HI I) as (s1 & e1 & E1 & HI1). rewrite E in E1. injection E1 as <- <-.
      destruct (strand_fires (l_done s) _ _ id [] HI1 Hst eq_refl Hid) as (l' & s' & e' & Hr' & Hl' & He').
      exists (LExpire id :: l'), s'. eexists. split; [by eapply run_cons_ok|]. split; [by constructor|done].
    + exists [LExpire id]. eexists _, [Fired id]. split; [|split; [by repeat constructor|by left]].
      assert (E : fire b (set_armed s (l_armed s ∖ {[id]})) id = Ok (set_stack (set_armed s (l_armed s ∖ {[id]})) (FFire id :: l_stack s), [Fired id])).
      { unfold fire. cbn. rewrite bool_decide_eq_true_2 by done. by rewrite bool_decide_eq_true_2 by (by rewrite (li_same _ _ _ HI)). }
      cbn. rewrite bool_decide_eq_true_2, Hst by done. destruct b; [done|rewrite E; reflexivity..].
  - apply elem_of_list_split in Hd as (pre & post & Hd). by eapply strand_fires.
Qed.
(** What the callbacks and handlers sent is dispatched in order. *)
Lemma l_sent b ops s ev : run (lstep b) linit ops = Ok (s, ev) -> handled ev ++ l_queue s = sent ev.
Proof.
  intros H. refine (run_inv_ev (lstep b) (fun _ _ => True) (fun s ev => handled ev ++ l_queue s = sent ev) _ ops linit [] s ev _ _ H); [|done|apply guarded_true].
  clear. intros s ev o s' e HI _ H. unfold handled, sent in *. rewrite !omap_app.
  assert (HQ : omap (fun e => match e with Handled m => Some m | _ => None end) e = [] -> omap (fun e => match e with Sent m => Some m | _ => None end) e = [] -> l_queue s' = l_queue s ->
     (omap (fun e => match e with Handled m => Some m | _ => None end) ev ++ omap (fun e => match e with Handled m => Some m | _ => None end) e) ++ l_queue s' =
     omap (fun e => match e with Sent m => Some m | _ => None end) ev ++ omap (fun e => match e with Sent m => Some m | _ => None end) e) by (intros -> -> ->; by rewrite !app_nil_r).
  assert (HA : forall s0 id, l_queue (after_fire b s0 id) = l_queue s0) by (intros s0 id; unfold after_fire; by destruct b).
  assert (HB : forall s0 id, l_queue (after_cancel b s0 id) = l_queue s0) by (intros s0 id; unfold after_cancel; by destruct (release_fields b (set_sup s0 (l_sup s0 ∖ {[id]}))) as (_ & _ & _ & _ & _ & _ & -> & _)).
  assert (HC : forall s0, l_queue (release b s0) = l_queue s0) by (intros s0; by destruct (release_fields b s0) as (_ & _ & _ & _ & _ & _ & -> & _)).
  assert (HD : l_queue (start_timer b s) = l_queue s) by (unfold start_timer, add_ref; by destruct (counted b)).
  destruct o; cbn in H; unfold do_cancel_timer, fire in H.
  7: { injection H as <- <-. cbn. by rewrite app_nil_r, app_assoc, HI. }
  all: repeat case_match; simplify_eq; try (apply HQ; [done|done|]; rewrite ?HA, ?HB, ?HC, ?HD; done).
  cbn. rewrite <-HI, app_nil_r, <-app_assoc. done.
Qed.

(** fltk: no frame processes the queue unless the loop does. *)
Definition no_proc (s : lstate) : Prop := Forall (fun f => match f with FProc _ => False | _ => True end) (l_stack s).
Lemma fltk_idle l : forall s s' e, no_proc s -> Forall (fun o => o <> LProcess) l -> run (lstep Fltk) s l = Ok (s', e) -> handled e = [].
Proof.
  induction l as [|o l IH]; intros s s' e HN Hl H; cbn in H; [by injection H as <- <-|]. inversion Hl as [|? ? Ho Hl']; subst.
  destruct (lstep Fltk s o) as [[s1 e1]| |] eqn:Es; cbn in H; [|done..]. destruct (run (lstep Fltk) s1 l) as [[s2 e2]| |] eqn:Er; cbn in H; [|done..]. injection H as <- <-.
  enough (no_proc s1 /\ handled e1 = []) as [HN1 HE1] by (unfold handled in *; rewrite omap_app, HE1; by eapply IH).
  clear IH Er. unfold no_proc in *. destruct o; cbn in Es; unfold do_cancel_timer, fire, after_fire, after_cancel, release in Es; cbn in Es; try done;
    repeat case_match; simplify_eq; cbn; try done; try (split; [by constructor|done]); try (inversion HN; subst; done);
    (split; [|done]); repeat match goal with H : l_stack _ = _ |- _ => rewrite H end; done.
Qed.
