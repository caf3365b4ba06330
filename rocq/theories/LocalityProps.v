(** C58: localities. *)
From stdpp Require Import base list gmap.
From Verif Require Import Base LocalityModel LocalitySpec LocalityProofs.

(** Nothing but the tag of a subscription can violate an assertion, and the tag
    does not for an actor whose supervisor leads its locality. *)
Theorem C58_runs ops :
  guarded step (fun w o => ok w o /\ forall h a t s, o = OTag h a -> w_addr w !! a = Some t ->
                  w_hand w !! h = Some s -> place_of w t <> place_of w s \/ leader w s = s) init ops ->
  exists w ev, run step init ops = Ok (w, ev).
Proof. exact (runs ops). Qed.

(** The leader is the topmost ancestor which is reached through supervisors of the
    same locality, and it leads itself. *)
Theorem C58_leader ops w ev s x :
  reaches ops w ev -> w_sup w !! s = Some x ->
  up_same w (s_place x) s (s_leader x) /\ top_of_place w (s_leader x) /\
  leader w (s_leader x) = s_leader x /\ place_of w (s_leader x) = s_place x.
Proof.
  intros Hr Hx. pose proof (wf_sup _ (reaches_wf _ _ _ Hr) _ _ Hx) as (H1 & H2 & H3 & _).
  split_and!; try done. by destruct (up_same_ends _ _ _ _ H1) as (_ & ? & _).
Qed.

(** With the [make_address] of supervisor_t the whole tree has one locality and the
    root leads it. *)
Theorem C58_default ops w ev s x :
  sups_default ops -> reaches ops w ev -> w_sup w !! s = Some x ->
  s_place x = AtRoot (s_root x) /\ s_leader x = s_root x /\ up w s (s_root x) /\
  (exists r, w_sup w !! s_root x = Some r /\ s_parent r = None) /\
  (forall p, s_parent x = Some p -> exists y, w_sup w !! p = Some y /\ s_root y = s_root x).
Proof.
  intros Hd Hr Hx. destruct (reaches_default _ _ _ Hd Hr _ _ Hx) as [H1 H2].
  destruct (wf_sup _ (reaches_wf _ _ _ Hr) _ _ Hx) as (_ & _ & _ & H4 & H5 & H6 & _).
  split_and!; try done. intros p Hp. destruct (H6 _ Hp) as (y & ? & ? & _). eauto.
Qed.

(** If a supervisor which leaves the locality of its parent opens a new one, every
    locality has one leader, every message is dispatched by the leader of its
    address, a handler runs at its own leader and nothing is lost. *)
Theorem C58_found ops w ev :
  guarded step (fun w o => ok w o /\ orderly w o) init ops -> run step init ops = Ok (w, ev) ->
  coherent w /\ Forall (right_place w) ev /\
  forall l a h t, (a, h) ∈ map_of w l -> w_addr w !! a = Some t -> l = leader w t.
Proof.
  intros Hg Hr. destruct (orderly_run _ _ _ Hg Hr) as (Hw & Hc & Hf). split_and!; [done..|].
  intros l a h t. by apply stored_at.
Qed.

(** So it is with the [make_address] of supervisor_t. *)
Theorem C58_found_default ops w ev :
  sups_default ops -> reaches ops w ev ->
  coherent w /\ Forall (right_place w) ev /\
  forall l a h t, (a, h) ∈ map_of w l -> w_addr w !! a = Some t -> l = leader w t.
Proof.
  intros Hd Hr. destruct (default_run _ _ _ Hd Hr) as (Hw & Hc & Hf). split_and!; [done..|].
  intros l a h t. by apply stored_at.
Qed.

(** One turn of a dispatcher with a message of the user: the leader of the address
    serves every subscription once, at home by a call, abroad by a message to the
    leader of the handler; another leader hands the message over. *)
Theorem C58_turn ops w ev l m a q t :
  reaches ops w ev -> coherent w -> exists_sup w l -> leader w l = l -> queue_of w l = MUser m a :: q ->
  w_addr w !! a = Some t ->
  exists w' e, step w (OProcess l) = Ok (w', e) /\
    if decide (leader w t = l) then
      EDispatch l (MUser m a) ∈ e /\
      forall h s, w_hand w !! h = Some s ->
        if decide (leader w s = l)
        then count (is_run h m a) e = subs_in w l a h /\
             (forall l', count (is_call h m a) (queue_of w' l') =
                         count (is_call h m a) (queue_of (set_queue w l q) l'))
        else count (is_run h m a) e = 0 /\
             (forall l', count (is_call h m a) (queue_of w' l') =
                         count (is_call h m a) (queue_of (set_queue w l q) l') +
                         if decide (leader w s = l') then subs_in w l a h else 0)
    else
      e = [EForward l (MUser m a)] /\
      queue_of w' (leader w t) = queue_of w (leader w t) ++ [MUser m a].
Proof.
  intros Hr Hc Hl Hll Hq Ha. simpl. rewrite Hll.
  exact (turn_user w l m a q t (reaches_wf _ _ _ Hr) Hc Hl Hll Hq Ha).
Qed.

(** The same for a subscription from another locality and for a call. *)
Theorem C58_turn_system ops w ev l x q t :
  reaches ops w ev -> coherent w -> exists_sup w l -> leader w l = l -> queue_of w l = x :: q ->
  dest w x = Some t -> (forall m a, x <> MUser m a) ->
  exists w' e, step w (OProcess l) = Ok (w', e) /\
    if decide (leader w t = l) then
      match x with
      | MSubscribe a h => e = [EDispatch l x] /\ map_of w' l = map_of w l ++ [(a, h)]
      | MCall h m a => e = [EDispatch l x; ERun l h m a]
      | _ => False
      end
    else e = [EForward l x] /\ queue_of w' (leader w t) = queue_of w (leader w t) ++ [x].
Proof.
  intros Hr Hc Hl Hll Hq Ha Hx. simpl. rewrite Hll.
  exact (turn_system w l x q t (reaches_wf _ _ _ Hr) Hc Hl Hll Hq Ha Hx).
Qed.

(** The tag works exactly if the supervisor of the actor leads its locality or the
    address is foreign; otherwise the assertion in update is violated. *)
Theorem C58_tag_partial ops w ev h a t s :
  reaches ops w ev -> ok w (OTag h a) -> w_addr w !! a = Some t -> w_hand w !! h = Some s ->
  (step w (OTag h a) = Ok (w, [ETagged a h]) <-> place_of w t <> place_of w s \/ leader w s = s) /\
  (step w (OTag h a) = AssertFail <-> place_of w t = place_of w s /\ leader w s <> s).
Proof. intros Hr. exact (tag_iff w h a t s (reaches_wf _ _ _ Hr)). Qed.

(** ** The rules can be obeyed *)

Definition okb (w : world) (o : lop) : bool :=
  match o with
  | OSup s p _ => bool_decide (w_sup w !! s = None) && bool_decide (w_map w !! s = None) &&
                  bool_decide (w_queue w !! s = None) &&
                  match p with Some q => bool_decide (is_Some (w_sup w !! q)) | None => true end
  | OAddr a s => bool_decide (w_addr w !! a = None) && bool_decide (is_Some (w_sup w !! s))
  | OHandler h s => bool_decide (w_hand w !! h = None) && bool_decide (is_Some (w_sup w !! s))
  | OSubscribe h a => bool_decide (is_Some (w_hand w !! h)) && bool_decide (is_Some (w_addr w !! a))
  | OForget h a => match w_addr w !! a with
                   | Some t => bool_decide ((a, h) ∈ map_of w (leader w t)) | None => false end
  | OTag h a => match w_addr w !! a, w_hand w !! h with
                | Some t, Some s => bool_decide (place_of w t <> place_of w s) ||
                                    bool_decide ((a, h) ∈ map_of w (leader w s))
                | _, _ => false end
  | OSend s _ a => bool_decide (is_Some (w_sup w !! s)) && bool_decide (is_Some (w_addr w !! a))
  | OProcess s => bool_decide (is_Some (w_sup w !! s))
  end.

Lemma okb_ok w o : okb w o = true -> ok w o.
Proof.
  destruct o as [s p k|a s|h s|h a|h a|h a|s m a|s]; simpl; unfold exists_sup;
    rewrite ?andb_true_iff, ?bool_decide_eq_true; try tauto.
  - intros [[[H1 H2] H3] H4]. split_and!; try done. intros q ->. by apply bool_decide_eq_true in H4.
  - destruct (w_addr w !! a) as [t|]; [|done]. rewrite bool_decide_eq_true. eauto.
  - destruct (w_addr w !! a) as [t|]; [|done]. destruct (w_hand w !! h) as [s|]; [|done].
    rewrite orb_true_iff, !bool_decide_eq_true. eauto.
Qed.

Definition orderlyb (w : world) (o : lop) : bool :=
  match o with
  | OSup s p k =>
      match p with Some q => bool_decide (place_of w q = make_address w s p k) | None => false end ||
      forallb (fun '(t, x) => bool_decide (s_place x <> make_address w s p k)) (map_to_list (w_sup w))
  | _ => true
  end.

Lemma orderlyb_ok w o : orderlyb w o = true -> orderly w o.
Proof.
  destruct o as [s p k|a s|h s|h a|h a|h a|s m a|s]; simpl; try done.
  rewrite orb_true_iff. intros [H|H].
  - left. destruct p as [q|]; [|done]. apply bool_decide_eq_true in H. eauto.
  - right. intros t [x Hx]. rewrite (place_some _ _ _ Hx).
    rewrite forallb_forall in H. specialize (H (t, x)). simpl in H.
    apply bool_decide_eq_true in H; [done|]. apply elem_of_list_In. by apply elem_of_map_to_list.
Qed.

(** Two strands, an actor under each: subscription and message cross. *)
Definition two_strands : list lop :=
  [OSup 0 None (Strand 7); OSup 1 (Some 0) (Strand 8); OSup 2 (Some 1) (Strand 8);
   OAddr 10 0; OHandler 20 2; OSubscribe 20 10; OProcess 2; OProcess 0;
   OSend 1 5 10; OProcess 1; OProcess 0; OProcess 2].

Example C58_two_strands :
  guarded step (fun w o => ok w o /\ orderly w o) init two_strands /\
  exists w, run step init two_strands = Ok (w,
    [EForward 1 (MSubscribe 10 20); EDispatch 0 (MSubscribe 10 20);
     EForward 1 (MUser 5 10); EDispatch 0 (MUser 5 10);
     EDispatch 1 (MCall 20 5 10); ERun 1 20 5 10]) /\ leader w 2 = 1.
Proof.
  split.
  - apply (guardedb_sound step (fun w o => okb w o && orderlyb w o)).
    + intros w o H. apply andb_true_iff in H as [H1 H2]. split; [by apply okb_ok|by apply orderlyb_ok].
    + by vm_compute.
  - eexists. split; [by vm_compute|by vm_compute].
Qed.

(** A child supervisor of the same locality: the root leads. *)
Definition child_sup : list lop :=
  [OSup 0 None Default; OSup 1 (Some 0) Default; OAddr 10 1; OHandler 20 1; OSubscribe 20 10;
   OSend 0 5 10; OProcess 1].

Example C58_child :
  sups_default child_sup /\
  exists w, reaches child_sup w [EDispatch 0 (MUser 5 10); ERun 0 20 5 10] /\ leader w 1 = 0 /\
            ok w (OTag 20 10) /\ ok w (OForget 20 10).
Proof.
  split; [by repeat constructor|]. eexists. split_and!.
  - split; [|by vm_compute]. apply (guardedb_sound step okb); [exact okb_ok|by vm_compute].
  - by vm_compute.
  - apply okb_ok. by vm_compute.
  - apply okb_ok. by vm_compute.
Qed.

(** ** What the code violates *)

(** An actor below a child supervisor of the same locality tags a subscription on
    its own address: the assertion at subscription.cpp 54 is violated. *)
Theorem C58_tag_refuted :
  exists ops w ev h a, sups_default ops /\ reaches ops w ev /\ ok w (OTag h a) /\
    step w (OTag h a) = AssertFail.
Proof.
  destruct C58_child as (Hd & w & Hr & Hl & Ho & _).
  exists child_sup, w, [EDispatch 0 (MUser 5 10); ERun 0 20 5 10], 20, 10. split_and!; try done.
  destruct Hr as [_ Hr]. vm_compute in Hr. simplify_eq. by vm_compute.
Qed.

(** Without the rule [orderly] a message is lost: a supervisor and its grandchild
    have the same strand, the supervisor between them another one.  The handler is
    subscribed, the message was sent and dispatched, all queues are empty, and the
    handler did not run. *)
Definition shared_strand : list lop :=
  [OSup 0 None (Strand 7); OSup 1 (Some 0) (Strand 8); OSup 2 (Some 1) (Strand 7);
   OAddr 10 2; OHandler 20 2; OSubscribe 20 10; OSend 0 5 10; OProcess 0].

Theorem C58_lost_refuted :
  exists ops w ev a h t s m, reaches ops w ev /\ w_addr w !! a = Some t /\ w_hand w !! h = Some s /\
    (a, h) ∈ map_of w (leader w t) /\ In (OSend 0 m a) ops /\
    Forall (fun '(_, q) => q = []) (map_to_list (w_queue w)) /\ count (is_run h m a) ev = 0.
Proof.
  destruct (run step init shared_strand) as [[w ev]| |] eqn:Hr; [|by vm_compute in Hr..].
  exists shared_strand, w, ev, 10, 20, 2, 2, 5.
  assert (Hg : guarded step ok init shared_strand).
  { apply (guardedb_sound step okb); [exact okb_ok|by vm_compute]. }
  split; [by split|]. vm_compute in Hr. injection Hr as <- <-.
  split_and!; [by vm_compute|by vm_compute| | | |by vm_compute].
  - apply (bool_decide_unpack _). by vm_compute.
  - simpl. tauto.
  - apply (bool_decide_unpack _). by vm_compute.
Qed.

(** The same with two supervisors of the default kind below one with a strand: a
    subscription from one to the other is lost. *)
Definition mixed : list lop :=
  [OSup 0 None (Strand 7); OSup 1 (Some 0) Default; OSup 2 (Some 0) Default;
   OAddr 10 2; OHandler 20 1; OSubscribe 20 10; OSend 2 5 10; OProcess 1; OProcess 2].

Theorem C58_mixed_refuted :
  exists ops w ev a h t s m, reaches ops w ev /\ w_addr w !! a = Some t /\ w_hand w !! h = Some s /\
    In (OSubscribe h a) ops /\ In (OSend 2 m a) ops /\ place_of w t = place_of w s /\ leader w t <> leader w s /\
    Forall (fun '(_, q) => q = []) (map_to_list (w_queue w)) /\ count (is_run h m a) ev = 0.
Proof.
  destruct (run step init mixed) as [[w ev]| |] eqn:Hr; [|by vm_compute in Hr..].
  exists mixed, w, ev, 10, 20, 2, 1, 5.
  assert (Hg : guarded step ok init mixed).
  { apply (guardedb_sound step okb); [exact okb_ok|by vm_compute]. }
  split; [by split|]. vm_compute in Hr. injection Hr as <- <-.
  split_and!; [by vm_compute|by vm_compute|simpl; tauto|simpl; tauto|by vm_compute|by vm_compute| |by vm_compute].
  apply (bool_decide_unpack _). by vm_compute.
Qed.

Print Assumptions C58_runs.
Print Assumptions C58_leader.
Print Assumptions C58_default.
Print Assumptions C58_found.
Print Assumptions C58_found_default.
Print Assumptions C58_turn.
Print Assumptions C58_turn_system.
Print Assumptions C58_tag_partial.
Print Assumptions C58_tag_refuted.
Print Assumptions C58_lost_refuted.
Print Assumptions C58_mixed_refuted.
