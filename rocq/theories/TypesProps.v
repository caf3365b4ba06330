(** C70: the types of messages at run time. *)
From stdpp Require Import base list gmap.
From Verif Require Import Base TypesModel TypesSpec TypesProofs.
Open Scope N_scope.

(** The pointers of initialised variables, in whatever modules, are equal iff the names are. *)
Theorem C70_agree name ops s e m t m' t' q q' : guarded (step name) careful tinit ops -> run (step name) tinit ops = Ok (s, e) ->
  t_vars s !! (m, t) = Some q -> t_vars s !! (m', t') = Some q' -> q <> 0 /\ (q = q' <-> name t = name t').
Proof. intros Hg Hr. apply agree. by eapply reach. Qed.
(** If each type has its own name, nothing goes wrong, and a message reaches exactly the handlers of
    its type, of all modules, in the order of their subscriptions. *)
Theorem C70_safe name ops : (forall t t', name t = name t' -> t = t') -> guarded (step name) careful tinit ops -> exists s e, run (step name) tinit ops = Ok (s, e).
Proof. intros Hn. apply safe_from; [done|apply Inv_init]. Qed.
Theorem C70_reaches name ops s e k t p : guarded (step name) careful tinit ops -> run (step name) tinit ops = Ok (s, e) -> t_msgs s !! k = Some (t, p) ->
  (forall m t' key, (m, t', key) ∈ t_hs s -> name t' = name t -> t' = t) -> step name s (ODeliver k) = Ok (s, wanted s t).
Proof. intros Hg Hr. apply deliver_ok. by eapply reach. Qed.
(** If not, a message is given to a handler which takes it for something else. *)
Theorem C70_same_name name ops s e k t p m t' key : guarded (step name) careful tinit ops -> run (step name) tinit ops = Ok (s, e) -> t_msgs s !! k = Some (t, p) ->
  (m, t', key) ∈ t_hs s -> name t' = name t -> t' <> t -> step name s (ODeliver k) = Crash.
Proof. intros Hg Hr. apply deliver_crash. by eapply reach. Qed.

Definition idn (t : N) : N := t.

(** Two structures of one name in unnamed namespaces of two sources: their texts are equal. *)
Theorem C70_anonymous_refuted : exists name ops s e k, guarded (step name) careful tinit ops /\ run (step name) tinit ops = Ok (s, e) /\ (k < length (t_msgs s))%nat /\ step name s (ODeliver k) = Crash.
Proof.
  exists (fun _ => 5), [OLoad 1 [(1, 10); (2, 11)]; OInit 1 1; OInit 1 2; OSub 1 2; OMake 1 1]. do 2 eexists. exists 0%nat.
  split; [apply (guardedb_sound _ carefulb); [apply carefulb_sound|vm_compute; reflexivity]|]. split; [vm_compute; reflexivity|]. split; [cbn; lia|vm_compute; reflexivity].
Qed.
(** A message which is made before the variable of its type is initialised (a global object of
    another source): nobody gets it. *)
Theorem C70_early_refuted : exists ops s e k t p, guarded (step idn) (fun s o => sane s o /\ not_first s o) tinit ops /\ run (step idn) tinit ops = Ok (s, e) /\ t_msgs s !! k = Some (t, p) /\
  step idn s (ODeliver k) = Ok (s, []) /\ wanted s t = [ECalled 1 1].
Proof.
  exists [OLoad 1 [(1, 10)]; OMake 1 1; OInit 1 1; OSub 1 1]. do 2 eexists. exists 0%nat, 1, 0.
  split; [apply (guardedb_sound _ (fun s o => saneb s o && not_firstb s o)); [intros s o [H1 H2]%andb_true_iff; split; [by apply saneb_sound|by apply not_firstb_sound]|vm_compute; reflexivity]|].
  split; [vm_compute; reflexivity|]. repeat split; vm_compute; reflexivity.
Qed.
(** A handler which is subscribed too early gets nothing, neither what is made later nor what was
    made too early as well. *)
Theorem C70_stale_refuted : exists ops s e, guarded (step idn) (fun s o => sane s o /\ not_first s o) tinit ops /\ run (step idn) tinit ops = Ok (s, e) /\
  (exists p, t_msgs s = [(1, 0); (1, p)] /\ p <> 0) /\ (forall k, k = 0%nat \/ k = 1%nat -> step idn s (ODeliver k) = Ok (s, [])) /\ wanted s 1 = [ECalled 1 1].
Proof.
  exists [OLoad 1 [(1, 10)]; OMake 1 1; OSub 1 1; OInit 1 1; OMake 1 1]. do 2 eexists.
  split; [apply (guardedb_sound _ (fun s o => saneb s o && not_firstb s o)); [intros s o [H1 H2]%andb_true_iff; split; [by apply saneb_sound|by apply not_firstb_sound]|vm_compute; reflexivity]|].
  split; [vm_compute; reflexivity|]. split; [exists 10; by vm_compute|]. split; [intros k [->| ->]; vm_compute; reflexivity|vm_compute; reflexivity].
Qed.
(** Two of them, one made and one subscribed: taken for each other. *)
Theorem C70_null_refuted : exists ops s e k, guarded (step idn) (fun s o => sane s o /\ not_first s o) tinit ops /\ run (step idn) tinit ops = Ok (s, e) /\ (k < length (t_msgs s))%nat /\ step idn s (ODeliver k) = Crash.
Proof.
  exists [OLoad 1 [(1, 10); (2, 11)]; OMake 1 1; OSub 1 2]. do 2 eexists. exists 0%nat.
  split; [apply (guardedb_sound _ (fun s o => saneb s o && not_firstb s o)); [intros s o [H1 H2]%andb_true_iff; split; [by apply saneb_sound|by apply not_firstb_sound]|vm_compute; reflexivity]|].
  split; [vm_compute; reflexivity|]. split; [cbn; lia|vm_compute; reflexivity].
Qed.
(** A library which is unloaded and loaded elsewhere: the map compares with a text which is gone. *)
Theorem C70_reload_refuted : exists ops o, guarded (step idn) (fun s o => sane s o /\ after_init s o) tinit (ops ++ [o]) /\ (exists s e, run (step idn) tinit ops = Ok (s, e)) /\ run (step idn) tinit (ops ++ [o]) = Crash.
Proof.
  exists [OLoad 1 [(1, 10)]; OInit 1 1; OUnload 1; OLoad 1 [(1, 20)]], (OInit 1 1).
  split; [apply (guardedb_sound _ (fun s o => saneb s o && after_initb s o)); [intros s o [H1 H2]%andb_true_iff; split; [by apply saneb_sound|by apply after_initb_sound]|vm_compute; reflexivity]|].
  split; [do 2 eexists; vm_compute; reflexivity|vm_compute; reflexivity].
Qed.
(** A library is unloaded whose texts were the first; another is loaded there: its type gets the
    pointer of a type which is in use. *)
Theorem C70_reuse_refuted : exists ops s e k, guarded (step idn) (fun s o => sane s o /\ after_init s o) tinit ops /\ run (step idn) tinit ops = Ok (s, e) /\ (k < length (t_msgs s))%nat /\ step idn s (ODeliver k) = Crash.
Proof.
  exists [OLoad 1 [(1, 10)]; OInit 1 1; OLoad 3 [(1, 30)]; OInit 3 1; OUnload 1; OLoad 2 [(2, 10)]; OInit 2 2; OSub 2 2; OMake 3 1]. do 2 eexists. exists 0%nat.
  split; [apply (guardedb_sound _ (fun s o => saneb s o && after_initb s o)); [intros s o [H1 H2]%andb_true_iff; split; [by apply saneb_sound|by apply after_initb_sound]|vm_compute; reflexivity]|].
  split; [vm_compute; reflexivity|]. split; [cbn; lia|vm_compute; reflexivity].
Qed.

(** Two libraries with handlers for one type, a third type aside; the second library, which was not
    the first with the name, comes and goes. *)
Definition demo : list top := [OLoad 1 [(1, 10); (2, 11)]; OInit 1 1; OInit 1 2; OLoad 2 [(1, 20)]; OInit 2 1; OSub 1 1; OSub 1 2; OUnload 2; OLoad 2 [(1, 21)]; OInit 2 1; OSub 2 1; OMake 2 1; OMake 1 2; ODeliver 0; ODeliver 1].
Example C70_example : guarded (step idn) careful tinit demo /\ match run (step idn) tinit demo with Ok (_, e) => e = [EMade 10; EMade 11; ECalled 1 1; ECalled 2 1; ECalled 1 2] | _ => False end.
Proof. split; [apply (guardedb_sound _ carefulb); [apply carefulb_sound|vm_compute; reflexivity]|vm_compute; done]. Qed.

Print Assumptions C70_agree.
Print Assumptions C70_safe.
Print Assumptions C70_reaches.
Print Assumptions C70_same_name.
Print Assumptions C70_anonymous_refuted.
Print Assumptions C70_early_refuted.
Print Assumptions C70_stale_refuted.
Print Assumptions C70_null_refuted.
Print Assumptions C70_reload_refuted.
Print Assumptions C70_reuse_refuted.
