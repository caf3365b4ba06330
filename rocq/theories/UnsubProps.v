(** C67: unsubscribe() takes back a subscription of the actor which calls it. *)
From stdpp Require Import base list gmap.
From Verif Require Import Base UnsubModel UnsubSpec UnsubProofs.
Open Scope N_scope.

(** Unsubscribing by method at an actor which is not a supervisor fails an assertion,
    always: the lifetime plugin of its supervisor is asked, which knows nothing of it. *)
Theorem C67_plain_refuted sup home sig ops s ev a m d : run (ustep sup home sig) uinit ops = Ok (s, ev) -> sup a <> a ->
  ustep sup home sig s (UMethod a m d) = AssertFail.
Proof. intros Hr Ha. cbn. eapply (other_fails sig); [|done]. eapply run_UI; [apply UI_init|exact Hr]. Qed.

(** The other ways work for what is subscribed: by method at a supervisor, by handler
    at the address of the actor. *)
Theorem C67_found sup home sig ops s ev a m d x : run (ustep sup home sig) uinit ops = Ok (s, ev) -> x ∈ points s a -> u_meth x = m -> u_addr x = d ->
  (sup a = a -> exists s' e, ustep sup home sig s (UMethod a m d) = Ok (s', e)) /\
  (d = home a -> exists s' e, ustep sup home sig s (UHandler a a m) = Ok (s', e)).
Proof.
  intros Hr Hx Hm Hd. assert (Hs : UI sig s) by (eapply run_UI; [apply UI_init|exact Hr]).
  assert (Ha : alike sig a m d x = true) by (apply alike_spec; repeat split; try done; [by apply (ui_actor sig s Hs)|by subst]).
  cbn. split; [intros ->|intros <-]; by eapply found_one.
Qed.

(** Whatever is asked for is a subscription of the caller at that address which is in force,
    with a handler of the same signature; with that method if no other has its signature.
    Nobody takes back a subscription of somebody else. *)
Theorem C67_own sup home sig ops s ev o s' e x : run (ustep sup home sig) uinit ops = Ok (s, ev) -> ustep sup home sig s o = Ok (s', e) -> EAsked x ∈ e ->
  exists a m d, (o = UMethod a m d /\ sup a = a \/ o = UHandler a a m /\ d = home a) /\ x ∈ points s a /\ u_actor x = a /\ u_addr x = d /\ sig (u_meth x) = sig m /\
  (told_apart sig s a m d -> u_meth x = m).
Proof.
  intros Hr Ho Hx. assert (Hs : UI sig s) by (eapply run_UI; [apply UI_init|exact Hr]). destruct o as [a m d|a m d|a h m|]; cbn in Ho.
  - injection Ho as <- <-. by apply elem_of_list_singleton in Hx.
  - destruct (asked_for sup home sig _ _ _ _ _ _ _ _ Hs Ho Hx) as (H1 & H2 & H3 & H4 & H5). exists a, m, d. split; [by left|]. repeat split; try done. by apply (ui_actor sig s Hs).
  - destruct (asked_for sup home sig _ _ _ _ _ _ _ _ Hs Ho Hx) as (H1 & H2 & H3 & H4 & H5). subst h. exists a, m, (home a). split; [by right|]. repeat split; try done. by apply (ui_actor sig s Hs).
  - destruct (us_queue s); [injection Ho as <- <-; by apply elem_of_nil in Hx|]. destruct (find_last _ _); [|done]. injection Ho as <- <-. by apply elem_of_list_singleton in Hx.
Qed.

(** A confirmation always finds something, and of the subscriptions which the code cannot
    tell apart as many are taken back as were asked for. *)
Theorem C67_safe sup home sig ops : run (ustep sup home sig) uinit ops <> Crash.
Proof.
  assert (H : forall s, UI sig s -> run (ustep sup home sig) s ops <> Crash); [|apply H, UI_init].
  induction ops as [|o ops IH]; intros s Hs; [done|]. cbn. destruct (ustep sup home sig s o) as [[s1 e1]| |] eqn:E; cbn; [|done|by apply step_nocrash in E].
  specialize (IH s1 (step_UI sup home sig _ _ _ _ Hs E)). by destruct (run (ustep sup home sig) s1 ops) as [[s2 e2]| |].
Qed.
Theorem C67_count sup home sig ops s ev a m d : run (ustep sup home sig) uinit ops = Ok (s, ev) ->
  (here sig a m d s + gone sig a m d ev = made sig a m d ev /\ gone sig a m d ev + waiting sig a m d s = asked sig a m d ev)%nat.
Proof.
  intros Hr. destruct (counted sup home sig ops uinit s ev a m d (UI_init sig) Hr) as [H1 H2].
  assert (E1 : here sig a m d uinit = 0%nat) by (unfold here, points; cbn; by rewrite lookup_empty). assert (E2 : waiting sig a m d uinit = 0%nat) by done. lia.
Qed.

(** Actor 0 is a supervisor, 1 and 2 are its actors; methods 10 and 11 have one signature. *)
Definition boss (a : N) : N := 0.
Definition place (a : N) : N := a.
Definition signature (m : N) : N := if m =? 11 then 10 else m.
Notation ex := (ustep boss place signature).
Theorem C67_signature_refuted : exists s ev, run ex uinit [USubscribe 0 10 0; USubscribe 0 11 0; UMethod 0 10 0; UDeliver] = Ok (s, ev) /\
  ev = [EMade (USub 0 0 10 0 false); EMade (USub 1 0 11 0 false); EAsked (USub 1 0 11 0 false); EGone (USub 1 0 11 0 true)] /\ points s 0 = [USub 0 0 10 0 false].
Proof. eexists _, _. split; [vm_compute; reflexivity|]. split; reflexivity. Qed.
(** Asked again before the confirmation: nothing happens, the second subscription stays. *)
Theorem C67_twice_refuted : exists s ev, run ex uinit [USubscribe 1 5 1; USubscribe 1 5 1; UHandler 1 1 5; UHandler 1 1 5; UDeliver; UDeliver] = Ok (s, ev) /\ points s 1 = [USub 0 1 5 1 false].
Proof. eexists _, _. split; [vm_compute; reflexivity|]. reflexivity. Qed.
Example C67_works : exists s ev, run ex uinit [USubscribe 0 5 7; USubscribe 1 5 1; USubscribe 1 5 7; UMethod 0 5 7; UHandler 1 1 5; UDeliver; UDeliver] = Ok (s, ev) /\
  points s 0 = [] /\ points s 1 = [USub 2 1 5 7 false] /\ asked signature 1 5 1 ev = 1%nat /\ gone signature 1 5 1 ev = 1%nat.
Proof. eexists _, _. split; [vm_compute; reflexivity|]. repeat split; reflexivity. Qed.
Example C67_plain_works : run ex uinit [USubscribe 1 5 1; UMethod 1 5 1] = AssertFail.
Proof. vm_compute. reflexivity. Qed.

Print Assumptions C67_plain_refuted.
Print Assumptions C67_found.
Print Assumptions C67_own.
Print Assumptions C67_safe.
Print Assumptions C67_count.
Print Assumptions C67_signature_refuted.
Print Assumptions C67_twice_refuted.
