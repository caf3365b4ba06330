(** C68: reply addresses of requests. *)
From stdpp Require Import base list gmap.
From Verif Require Import Base ReplyMapModel ReplyMapSpec ReplyMapProofs.
Open Scope N_scope.

(** With requests sent in turn nothing goes wrong. *)
Theorem C68_safe ops : guarded rstep rok rinit ops -> exists s ev, run rstep rinit ops = Ok (s, ev).
Proof. intros Hg. destruct (runs ops Hg) as (s & ev & H & _). eauto. Qed.

(** request<...>(...).send(...) in one go is always in turn. *)
Theorem C68_chained ops s ev a ty : guarded rstep rok rinit ops -> run rstep rinit ops = Ok (s, ev) -> asks s a -> guarded rstep rok s [OBuild a ty; OSend (r_next s)].
Proof.
  intros Hg Hr Ha. cbn. split; [done|]. split; [|destruct (r_bld (build s a ty) !! r_next s) as [b|]; [by destruct (send _ b)|done]].
  intros x Hx. destruct (build_spec s a ty) as (b & Eb & Hbo & Hbt & Hbi). rewrite Eb in *. cbn in Hx. rewrite lookup_insert in Hx. injection Hx as <-. split; [by rewrite Hbo|].
  intros Hi. destruct Hbi as [[? _]|(_ & _ & Hn)]; [congruence|]. by rewrite Hbo, Hbt.
Qed.

(** The subscriptions of the supervisor to reply addresses are those which the map knows. *)
Theorem C68_tracked ops s ev i : guarded rstep rok rinit ops -> run rstep rinit ops = Ok (s, ev) -> i ∈ r_points s <-> mapped s (i_own i) (i_ty i) = Some i.
Proof. intros Hg Hr. destruct (runs ops Hg) as (s' & ev' & E & HR & _). rewrite Hr in E; injection E as <- <-. apply (pi_trk s), HR. Qed.

(** A child which has ended is forgotten once, and by then all its reply addresses are. *)
Theorem C68_removed ops s ev a : guarded rstep rok rinit ops -> run rstep rinit ops = Ok (s, ev) -> a ∈ r_ended s -> a ∈ r_kids s -> r_q s <> [] /\ exists i, i ∈ r_points s /\ i_own i = a /\ i ∈ confs (r_q s).
Proof.
  intros Hg Hr Ha Hk. destruct (runs ops Hg) as (s' & ev' & E & HR & _). rewrite Hr in E; injection E as <- <-. destruct (ri_end s HR a Ha Hk) as [H1 H2]. destruct (r_map s !! a) as [m|] eqn:Em; [|done].
  destruct (pi_ne s (ri_p s HR) a m Em) as [Hne _]. apply map_choose in Hne as (ty & i & Hi).
  assert (Hmi : mapped s a ty = Some i) by (apply mapped_some; eauto). destruct (pi_key s (ri_p s HR) _ _ _ Hmi) as [E1 E2].
  assert (Hip : i ∈ r_points s) by (apply (pi_trk s (ri_p s HR)); by rewrite E1, E2).
  assert (Hq : i ∈ confs (r_q s)) by (apply (qi_un _ _ _ (ri_q s HR)); [done|by apply H2]). split; [|eauto]. intros E'. rewrite E' in Hq. cbn in Hq. by apply elem_of_nil in Hq.
Qed.
Theorem C68_clean ops s ev i : guarded rstep rok rinit ops -> run rstep rinit ops = Ok (s, ev) -> i ∈ r_points s -> i_own i ∈ r_kids s.
Proof.
  intros Hg Hr Hi. destruct (runs ops Hg) as (s' & ev' & E & HR & _). rewrite Hr in E; injection E as <- <-. apply (pi_trk s (ri_p s HR)) in Hi. apply mapped_some in Hi as (m & E1 & _). by destruct (pi_ne s (ri_p s HR) _ _ E1).
Qed.
Theorem C68_once ops s ev : guarded rstep rok rinit ops -> run rstep rinit ops = Ok (s, ev) -> NoDup (removed ev).
Proof. intros Hg Hr. destruct (runs ops Hg) as (s' & ev' & E & _ & H & _). by rewrite Hr in E; injection E as <- <-. Qed.
(** Every reply subscription is in force or was taken back, once. *)
Theorem C68_balance ops s ev : guarded rstep rok rinit ops -> run rstep rinit ops = Ok (s, ev) -> subbed ev ≡ₚ confirmed ev ++ r_points s.
Proof. intros Hg Hr. destruct (runs ops Hg) as (s' & ev' & E & _ & _ & _ & H). by rewrite Hr in E; injection E as <- <-. Qed.
(** The child manager of a supervisor works until the supervisor shuts down. *)
Theorem C68_on ops s ev : guarded rstep rok rinit ops -> run rstep rinit ops = Ok (s, ev) -> r_down s = false -> r_cm s = CmOn /\ 0 ∈ r_kids s.
Proof. intros Hg Hr Hd. destruct (runs ops Hg) as (s' & ev' & E & HR & _). rewrite Hr in E; injection E as <- <-. by destruct (ri_up s HR Hd) as (? & ? & _). Qed.
(** The shutdown of the supervisor ends: after that nothing is left. *)
Theorem C68_drains ops s ev : guarded rstep rok rinit ops -> run rstep rinit ops = Ok (s, ev) ->
  exists k s' e, (k <= length (r_q s) + own_subs)%nat /\ run rstep s (repeat OConf k) = Ok (s', e) /\ r_q s' = [] /\ r_down s' = r_down s.
Proof.
  intros Hg Hr. destruct (runs ops Hg) as (s0 & ev0 & E & HR & _). rewrite Hr in E; injection E as <- <-. destruct (drains (left s) s HR) as (k & s' & e & Hk & Hr' & _ & Hq & Hd); [lia|].
  exists k, s', e. split; [|done]. unfold left in Hk. destruct (r_cm s); lia.
Qed.
Theorem C68_end ops s ev : guarded rstep rok rinit ops -> run rstep rinit ops = Ok (s, ev) -> r_down s = true -> r_q s = [] ->
  r_points s = [] /\ r_map s = ∅ /\ r_kids s = ∅ /\ r_cm s = CmGone.
Proof.
  intros Hg Hr Hd Hq. destruct (runs ops Hg) as (s' & ev' & E & HR & _). rewrite Hr in E; injection E as <- <-. destruct (ri_dn s HR Hd) as [Hall H].
  assert (Hp : r_points s = []).
  { destruct (r_points s) as [|i l] eqn:Ep; [done|]. exfalso. destruct (Hall i) as [_ Hu]; [set_solver|]. apply (qi_un _ _ _ (ri_q s HR)) in Hu; [|rewrite Ep; set_solver]. rewrite Hq in Hu. by apply elem_of_nil in Hu. }
  destruct H as [(Hm & _)|(Hm & Hk & [(n & _ & X)|[Hc _]])]; [|rewrite Hq in X; done|done].
  exfalso. apply Hm. apply map_eq. intros a. rewrite lookup_empty. destruct (r_map s !! a) as [m|] eqn:Em; [|done]. exfalso.
  destruct (pi_ne s (ri_p s HR) a m Em) as [Hne _]. apply map_choose in Hne as (ty & i & Hi).
  assert (Hmi : mapped s a ty = Some i) by (apply mapped_some; eauto). destruct (pi_key s (ri_p s HR) _ _ _ Hmi) as [E1 E2].
  assert (Hip : i ∈ r_points s) by (apply (pi_trk s (ri_p s HR)); by rewrite E1, E2). rewrite Hp in Hip. by apply elem_of_nil in Hip.
Qed.

(** A child builds two requests with one type of response and sends both afterwards; every
    operation is allowed except for the order.  After the end of the child the second handler
    stays subscribed for an owner which does not exist any more, and the shutdown of the
    supervisor terminates the program. *)
Definition two : list rop := [OChild 1; OBuild 1 7; OBuild 1 7; OSend 3; OSend 4; OEnd 1; OConf].
Definition freeb (s : rstate) (o : rop) : bool :=
  match o with
  | OChild a => bool_decide (a ∉ r_seen s) && negb (r_down s)
  | OBuild a _ => bool_decide (a ∈ r_kids s /\ a ∉ r_ended s) && negb (r_down s)
  | OSend b => match r_bld s !! b with Some x => bool_decide (b_own x ∈ r_kids s /\ b_own x ∉ r_ended s) && negb (r_down s) | None => true end
  | OEnd a => bool_decide (a ∈ r_kids s /\ a <> 0) && negb (r_down s)
  | OConf => true
  | ODown => bool_decide (r_kids s = {[0]})
  end.
Definition okb (s : rstate) (o : rop) : bool :=
  freeb s o && match o with OSend b => match r_bld s !! b with Some x => negb (b_inst x) || bool_decide (mapped s (b_own x) (b_ty x) = None) | None => true end | _ => true end.
Lemma freeb_sound s o : freeb s o = true -> rfree s o.
Proof.
  destruct o; cbn; unfold asks.
  - intros [H1%bool_decide_eq_true H2%negb_true_iff]%andb_prop. done.
  - intros [H1%bool_decide_eq_true H2%negb_true_iff]%andb_prop. tauto.
  - intros H x Hx. rewrite Hx in H. apply andb_prop in H as [H1%bool_decide_eq_true H2%negb_true_iff]. tauto.
  - intros [H1%bool_decide_eq_true H2%negb_true_iff]%andb_prop. tauto.
  - intros H%bool_decide_eq_true. by right.
  - done.
Qed.
Lemma okb_sound s o : okb s o = true -> rok s o.
Proof.
  intros [H1%freeb_sound H2]%andb_prop. destruct o; try exact H1. cbn in *. intros x Hx. split; [by apply H1|]. intros Hi. rewrite Hx, Hi in H2. cbn in H2. by apply bool_decide_eq_true in H2.
Qed.
Theorem C68_stale_refuted : guarded rstep rfree rinit two /\ exists s ev, run rstep rinit two = Ok (s, ev) /\ r_q s = [] /\ 1 ∈ r_ended s /\ 1 ∉ r_kids s /\ Info 6 1 7 4 ∈ r_points s /\ mapped s 1 7 = None.
Proof.
  split.
  - apply (guardedb_sound rstep freeb rfree freeb_sound). vm_compute. reflexivity.
  - eexists _, _. split; [vm_compute; reflexivity|]. split; [reflexivity|]. split; [|split; [|split; [|reflexivity]]].
    + by apply (bool_decide_unpack _); vm_compute.
    + by apply (bool_decide_unpack _); vm_compute.
    + set_solver.
Qed.
Theorem C68_two_refuted : run rstep rinit (two ++ [ODown; OConf]) = Crash.
Proof. vm_compute. reflexivity. Qed.
(** Sent in turn the same requests are harmless; and a supervisor may do it itself. *)
Example C68_in_turn : exists s ev, run rstep rinit [OChild 1; OBuild 1 7; OSend 3; OBuild 1 7; OSend 5; OEnd 1; OConf; ODown; OConf; OConf; OConf; OConf; OConf; OConf] = Ok (s, ev) /\
  r_q s = [] /\ r_points s = [] /\ removed ev = [1; 0] /\ subbed ev = [Info 2 0 0 1; Info 4 1 7 3] /\ confirmed ev = [Info 4 1 7 3; Info 2 0 0 1].
Proof. eexists _, _. split; [vm_compute; reflexivity|]. repeat split; reflexivity. Qed.
Example C68_own_two : exists s ev, run rstep rinit [OChild 1; OBuild 0 7; OBuild 0 7; OSend 3; OSend 4; OEnd 1; ODown; OConf; OConf; OConf; OConf; OConf; OConf; OConf; OConf] = Ok (s, ev) /\
  r_q s = [] /\ r_points s = [] /\ removed ev = [1; 0].
Proof. eexists _, _. split; [vm_compute; reflexivity|]. repeat split; reflexivity. Qed.
Example C68_guard_works : guarded rstep rok rinit [OChild 1; OBuild 1 7; OSend 3; OBuild 1 7; OSend 5; OEnd 1; OConf; ODown; OConf; OConf; OConf; OConf; OConf; OConf].
Proof. apply (guardedb_sound rstep okb rok okb_sound). vm_compute. reflexivity. Qed.

Print Assumptions C68_safe.
Print Assumptions C68_chained.
Print Assumptions C68_tracked.
Print Assumptions C68_removed.
Print Assumptions C68_clean.
Print Assumptions C68_once.
Print Assumptions C68_balance.
Print Assumptions C68_on.
Print Assumptions C68_drains.
Print Assumptions C68_end.
Print Assumptions C68_stale_refuted.
Print Assumptions C68_two_refuted.
