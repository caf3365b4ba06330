(** C69: handlers which subscribe and unsubscribe while a message is delivered. *)
From stdpp Require Import base list gmap.
From Verif Require Import Base IterModel IterSpec IterProofs.
Open Scope N_scope.

(** Handlers which only subscribe (anywhere, and forget elsewhere): if the delivery ends, then
    those which were there have been called, each once and in order; the new ones have not
    been called, but are there, at the end. *)
Theorem C69_calls does key strict l s s' ev : made l s -> (forall j, ~ forgets_here key (does j)) -> deliver strict does key s = Ok (s', ev) ->
  ev = ECall <$> handlers s key /\ handlers s' key = handlers s key ++ new_by does key (length (handlers s key)) 0.
Proof. exact (deliver_ok does key strict l s s' ev). Qed.

(** And the delivery ends iff there is room in the vector for what all calls but the last
    subscribe. *)
Theorem C69_ends does key l s : made l s -> (forall j k h, EForget k h ∉ does j) ->
  (enough false does key s -> exists s' ev, deliver false does key s = Ok (s', ev)) /\ (~ enough false does key s -> deliver false does key s = Crash).
Proof. exact (deliver_exact false does key l s). Qed.
Theorem C69_ends_strict does key l s : made l s -> (forall j k h, EForget k h ∉ does j) ->
  (enough true does key s -> exists s' ev, deliver true does key s = Ok (s', ev)) /\ (~ enough true does key s -> deliver true does key s = Crash).
Proof. exact (deliver_exact true does key l s). Qed.

(** Handlers which subscribe to other addresses or types only, or are alone, do no harm. *)
Theorem C69_elsewhere does key strict l s : made l s -> (forall j k h, EForget k h ∉ does j) -> (forall j h, ESubscribe key h ∉ does j) ->
  exists s', deliver strict does key s = Ok (s', ECall <$> handlers s key) /\ handlers s' key = handlers s key.
Proof.
  intros Hm Hf Hs. assert (Hnew : forall n i, new_by does key n i = []).
  { induction n as [|n IH]; intros i; cbn; [done|]. rewrite IH, app_nil_r. specialize (Hs i). induction (does i) as [|[k h|k h] r IHr]; cbn; [done| |].
    - case_decide as Hk; [subst k; exfalso; apply (Hs h); left|]. apply IHr. intros x Hx. apply (Hs x). by right.
    - apply IHr. intros x Hx. apply (Hs x). by right. }
  assert (He : enough strict does key s). { right. rewrite Hnew. cbn. pose proof (made_WF l s Hm) as HW. unfold handlers, room. destruct (i_map s !! key) as [v|] eqn:Hv; [|cbn; lia]. destruct (HW _ _ Hv) as [? _]. rewrite size_contents by done. lia. }
  destruct (deliver_exact strict does key l s Hm Hf) as [H _]. destruct (H He) as (s' & ev & E). destruct (deliver_ok does key strict l s s' ev Hm) as [-> E2]; [intros j [h Hh]; by apply (Hf j key h)|done|].
  exists s'. split; [done|]. by rewrite E2, Hnew, app_nil_r.
Qed.
Theorem C69_alone does key l s h : made l s -> (forall j k x, EForget k x ∉ does j) -> handlers s key = [h] ->
  exists s', deliver false does key s = Ok (s', [ECall h]) /\ handlers s' key = h :: new_here key (does 0%nat).
Proof.
  intros Hm Hf Hh. assert (He : enough false does key s). { right. rewrite Hh. cbn. pose proof (made_WF l s Hm) as HW. unfold handlers, room in *. destruct (i_map s !! key) as [v|] eqn:Hv; [|done]. destruct (HW _ _ Hv) as [Hsz _]. rewrite <- size_contents, Hh in Hsz by done. cbn in Hsz. lia. }
  destruct (deliver_exact false does key l s Hm Hf) as [H _]. destruct (H He) as (s' & ev & E). destruct (deliver_ok does key false l s s' ev Hm) as [-> E2]; [intros j [x Hx]; by apply (Hf j key x)|done|].
  exists s'. rewrite Hh in *. split; [done|]. rewrite E2. cbn. by rewrite app_nil_r.
Qed.

(** One call forgets one handler [h], the one at [j]: the calls which follow are those of the
    vector without it, moved down, and the last slot is read once more. *)
Theorem C69_erase does key l s h i j : made l s -> position h (handlers s key) = Some j -> (i < length (handlers s key))%nat ->
  does i = [EForget key h] -> (forall m, m <> i -> does m = []) ->
  exists s', deliver false does key s = Ok (s', ECall <$> take (S i) (handlers s key) ++ drop (S i) (take j (handlers s key) ++ drop (S j) (handlers s key) ++ drop (length (handlers s key) - 1) (handlers s key))) /\
    handlers s' key = take j (handlers s key) ++ drop (S j) (handlers s key).
Proof. intros Hm. exact (deliver_erased does key s h i j (made_WF l s Hm)). Qed.
(** So the last call may forget anything. *)
Theorem C69_erase_last does key l s h : made l s -> h ∈ handlers s key -> (forall m, does m = if decide (m = (length (handlers s key) - 1)%nat) then [EForget key h] else []) ->
  exists s' j, deliver false does key s = Ok (s', ECall <$> handlers s key) /\ position h (handlers s key) = Some j /\ handlers s' key = take j (handlers s key) ++ drop (S j) (handlers s key).
Proof.
  intros Hm Hh Hd. assert (Hl : (0 < length (handlers s key))%nat) by (destruct (handlers s key); [by apply elem_of_nil in Hh|cbn; lia]).
  destruct (list_find_elem_of (eq h) (handlers s key) h Hh eq_refl) as [[j x] Hj]. assert (Hp : position h (handlers s key) = Some j) by (unfold position; by rewrite Hj).
  pose proof (position_lt _ _ _ Hp) as [Hjl _].
  destruct (deliver_erased does key s h (length (handlers s key) - 1) j (made_WF l s Hm) Hp) as (s' & E1 & E2); [lia|by rewrite Hd, decide_True|intros m Hne; by rewrite Hd, decide_False|].
  exists s', j. split; [|done]. rewrite E1. f_equal. f_equal. f_equal. rewrite take_ge by lia. rewrite drop_ge; [by rewrite app_nil_r|]. rewrite !app_length, take_length, !drop_length. lia.
Qed.

Definition three := effects iinit [ESubscribe 7 1; ESubscribe 7 2; ESubscribe 7 3].
Definition first_does (e : ieff) (i : nat) : list ieff := match i with O => [e] | _ => [] end.

(** Two actors listen to one address; the handler of the first makes a third listen to the same
    (say, it creates an actor which subscribes while it is configured): the loop goes on in
    memory which has been freed. *)
Theorem C69_subscribe_refuted : exists l s does key, made l s /\ (forall j k h, EForget k h ∉ does j) /\ handlers s key = [1; 2] /\ deliver false does key s = Crash.
Proof.
  exists [ESubscribe 7 1; ESubscribe 7 2]. eexists. exists (first_does (ESubscribe 7 3)), 7. split; [vm_compute; reflexivity|]. split; [|split; vm_compute; reflexivity].
  intros [|j] k h Hx; cbn in Hx; [by apply elem_of_list_singleton in Hx|by apply elem_of_nil in Hx].
Qed.
(** With three there is room for a fourth; with four there is none. *)
Example C69_three_example : match three with Ok s => match deliver false (first_does (ESubscribe 7 4)) 7 s with Ok (s', ev) => ev = [ECall 1; ECall 2; ECall 3] /\ handlers s' 7 = [1; 2; 3; 4] | _ => False end | _ => False end.
Proof. vm_compute. done. Qed.
(** The handler which is alone, seen strictly: an iterator into a freed vector is advanced and compared. *)
Theorem C69_alone_strict_refuted : exists l s does key h, made l s /\ handlers s key = [h] /\ (forall j k x, EForget k x ∉ does j) /\ deliver true does key s = Crash.
Proof.
  exists [ESubscribe 7 1]. eexists. exists (first_does (ESubscribe 7 3)), 7, 1. split; [vm_compute; reflexivity|]. split; [vm_compute; reflexivity|]. split; [|vm_compute; reflexivity].
  intros [|j] k h Hx; cbn in Hx; [by apply elem_of_list_singleton in Hx|by apply elem_of_nil in Hx].
Qed.
(** The first of two forgets the second (the handlers of the lifetime plugin and of a user for
    confirmations of unsubscriptions, when that of the user is confirmed): it is called after that. *)
Theorem C69_called_after_refuted : exists l s s' does key h, made l s /\ does 0%nat = [EForget key h] /\ (forall m, m <> 0%nat -> does m = []) /\
  deliver false does key s = Ok (s', [ECall 1; ECall h]) /\ handlers s' key = [1].
Proof.
  exists [ESubscribe 7 1; ESubscribe 7 2]. do 2 eexists. exists (first_does (EForget 7 2)), 7, 2. split; [vm_compute; reflexivity|]. split; [done|]. split; [by intros [|m]|]. split; vm_compute; reflexivity.
Qed.
(** The first of three forgets itself: the second is not called, the third is called twice. *)
Theorem C69_skipped_refuted : exists l s s' does key, made l s /\ handlers s key = [1; 2; 3] /\ does 0%nat = [EForget key 1] /\ (forall m, m <> 0%nat -> does m = []) /\
  deliver false does key s = Ok (s', [ECall 1; ECall 3; ECall 3]) /\ handlers s' key = [2; 3].
Proof.
  exists [ESubscribe 7 1; ESubscribe 7 2; ESubscribe 7 3]. do 2 eexists. exists (first_does (EForget 7 1)), 7. split; [vm_compute; reflexivity|]. split; [vm_compute; reflexivity|]. split; [done|]. split; [by intros [|m]|]. split; vm_compute; reflexivity.
Qed.
Example C69_alone_example : match effects iinit [ESubscribe 7 1; ESubscribe 8 1] with Ok s => match deliver false (first_does (EForget 7 1)) 7 s with Ok (s', ev) => ev = [ECall 1] /\ handlers s' 7 = [] /\ handlers s' 8 = [1] | _ => False end | _ => False end.
Proof. vm_compute. done. Qed.

Print Assumptions C69_calls.
Print Assumptions C69_ends.
Print Assumptions C69_ends_strict.
Print Assumptions C69_elsewhere.
Print Assumptions C69_alone.
Print Assumptions C69_erase.
Print Assumptions C69_erase_last.
Print Assumptions C69_subscribe_refuted.
Print Assumptions C69_alone_strict_refuted.
Print Assumptions C69_called_after_refuted.
Print Assumptions C69_skipped_refuted.
