(** Deliveries whose handlers change the subscriptions: C55. *)
From stdpp Require Import base list gmap.
From Verif Require Import Base DispatchModel DispatchSpec DispatchProofs.
Open Scope N_scope.

(** C55: if no handler but the last one of a message makes or forgets a subscription
    for the same address and message type (of an actor of this locality), the loop of
    delivery() touches no released storage and calls no released handler ... *)
Theorem C55_safe : forall grow ops, guarded (dstep grow) calm dinit ops -> exists s ev, run (dstep grow) dinit ops = Ok (s, ev).
Proof. intros grow ops Hg. destruct (d_safe grow ops Hg) as (s & ev & H & _). eauto. Qed.
(** ... and each finished delivery called the handlers subscribed at its start, once
    each and in the order of their subscription, and handed the message over to the
    foreign ones. *)
Theorem C55_exact : forall grow ops s ev evA k evB k' evC, guarded (dstep grow) calm dinit ops -> run (dstep grow) dinit ops = Ok (s, ev) ->
  ev = evA ++ EStart k :: evB ++ EDone k' :: evC -> Forall (fun e => match e with EStart _ | EDone _ => False | _ => True end) evB ->
  k' = k /\ calls evB = of_key k true (subscribers evA) /\ forwards evB = of_key k false (subscribers evA).
Proof. exact d_exact. Qed.
(** A handler is subscribed when it is called. *)
Theorem C55_subscribed : forall grow ops s ev h, guarded (dstep grow) calm dinit ops -> run (dstep grow) dinit ops = Ok (s, ev) ->
  forall s' e, dstep grow s DNext = Ok (s', e) -> ECall h ∈ e -> exists l, d_loop s = Some l /\ (l_key l, true, h) ∈ subscribers ev.
Proof. exact d_called. Qed.

Definition double (n : nat) : nat := (2 * n)%nat.
Notation dd := (dstep double).
Definition calmb (s : dstate) (o : dop) : bool :=
  match o with
  | DSub k internal => negb internal || negb (match d_loop s with Some l => (l_key l =? k) && Nat.ltb (l_next l) (l_end l) | None => false end)
  | DForget k internal h => (negb internal || negb (match d_loop s with Some l => (l_key l =? k) && Nat.ltb (l_next l) (l_end l) | None => false end)) &&
      bool_decide (h ∈ (if internal then inner s k else outer s k))
  | _ => true
  end.
Lemma busy_b s k : negb (match d_loop s with Some l => (l_key l =? k) && Nat.ltb (l_next l) (l_end l) | None => false end) = true -> ~ busy s k.
Proof.
  unfold busy. destruct (d_loop s) as [l|]; [|auto]. intros H [H1 H2]. apply Nat.ltb_lt in H2. by rewrite H1, N.eqb_refl, H2 in H.
Qed.
Lemma calmb_ok s o : calmb s o = true -> calm s o.
Proof.
  destruct o as [k i|k i h|k|]; cbn; try done.
  - intros H ->. cbn in H. by apply busy_b.
  - intros [H1 H2]%andb_prop. split; [intros ->; cbn in H1; by apply busy_b|]. by apply bool_decide_eq_true_1 in H2.
Qed.
(** Two handlers and a foreign one for key 7 (handlers 0, 3 and 6); the first one
    subscribes another actor to key 8, the last one forgets itself, as the lifetime
    plugin does with its own subscription; then the rest. *)
Definition session : list dop := [DSub 7 true; DSub 7 true; DSub 7 false; DStart 7; DNext; DSub 8 true; DNext; DForget 7 true 3; DSub 7 true; DNext; DStart 7; DNext; DNext; DNext].
Example C55_session : guarded dd calm dinit session /\ exists s ev, run dd dinit session = Ok (s, ev) /\
  ev = [ESubscribed 7 true 0; ESubscribed 7 true 3; ESubscribed 7 false 6; EStart 7; EForward 6; ECall 0; ESubscribed 8 true 9; ECall 3; EForgot 7 3; ESubscribed 7 true 12; EDone 7;
        EStart 7; EForward 6; ECall 0; ECall 12; EDone 7].
Proof.
  split; [apply (guardedb_sound _ calmb calm calmb_ok); vm_compute; reflexivity|].
  eexists _, _. split; vm_compute; reflexivity.
Qed.
(** The only handler of a message forgets itself: the storage is released, and nothing
    is read from it. *)
Example C55_last : guarded dd calm dinit [DSub 7 true; DStart 7; DNext; DForget 7 true 0; DNext] /\ exists s ev,
  run dd dinit [DSub 7 true; DStart 7; DNext; DForget 7 true 0; DNext] = Ok (s, ev) /\ d_mine s !! 7 = None.
Proof.
  split; [apply (guardedb_sound _ calmb calm calmb_ok); vm_compute; reflexivity|].
  eexists _, _. split; vm_compute; reflexivity.
Qed.

(** Without the rule: a handler which subscribes an actor to the address and type of
    the message it handles makes the loop read released storage ... *)
Theorem C55_subscribe_refuted : exists k, let ops := [DSub k true; DSub k true; DStart k; DNext; DSub k true; DNext] in run dd dinit ops = Crash.
Proof. exists 7. vm_compute. reflexivity. Qed.
(** ... and one which forgets a subscription makes it read behind the end. *)
Theorem C55_forget_refuted : exists k h, let ops := [DSub k true; DSub k true; DStart k; DNext; DForget k true h; DNext] in run dd dinit ops = Crash /\
  guarded dd (fun s o => match o with DForget k i h => h ∈ (if i then inner s k else outer s k) | _ => True end) dinit ops.
Proof.
  exists 7, 0. split; [vm_compute; reflexivity|].
  apply (guardedb_sound _ (fun s o => match o with DForget k i h => bool_decide (h ∈ (if i then inner s k else outer s k)) | _ => true end)); [|vm_compute; reflexivity].
  intros s o H. destruct o; try done. by apply bool_decide_eq_true_1 in H.
Qed.

Print Assumptions C55_safe.
Print Assumptions C55_exact.
Print Assumptions C55_subscribed.
Print Assumptions C55_subscribe_refuted.
Print Assumptions C55_forget_refuted.
