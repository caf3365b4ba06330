(** C02, C05, C39: the subscription map. *)
From stdpp Require Import base list gmap.
From Verif Require Import Base SubsModel SubsSpec SubsProofs.

(** C02: after any history, a message for ([a], [m]) goes to exactly the
    handlers of the live matching subscriptions: foreign ones first, then own
    ones, each group in subscription order. *)
Theorem C02_recipients : forall addr_in actor_in ops s tr a m,
  run (sstep addr_in actor_in) subs_init ops = Ok (s, tr) ->
  view <$> recipients s a m = sview <$> expected actor_in (live addr_in tr) a m.
Proof. exact recipients_spec. Qed.

(** No handler occurs twice: each subscription is served once. *)
Theorem C02_once : forall addr_in actor_in ops s tr a m,
  run (sstep addr_in actor_in) subs_init ops = Ok (s, tr) ->
  NoDup (h_core <$> recipients s a m).
Proof. exact recipients_once. Qed.

(** The message has the type the handler was made for. *)
Theorem C02_typed : forall addr_in actor_in ops s tr a m h,
  run (sstep addr_in actor_in) subs_init ops = Ok (s, tr) ->
  In h (recipients s a m) -> h_mtype h = m.
Proof. exact recipients_typed. Qed.

(** Operations on live subscriptions never hit an assert or undefined behaviour. *)
Theorem C02_protocol_safe : forall addr_in actor_in ops,
  guarded (sstep addr_in actor_in) sop_ok subs_init ops ->
  exists s tr, run (sstep addr_in actor_in) subs_init ops = Ok (s, tr).
Proof. exact protocol_safe. Qed.

(** C05: once a subscription has been forgotten, its handler receives nothing,
    whatever happens later.  (Its method object has identity [id - 1].) *)
Theorem C05_silent : forall addr_in actor_in ops1 id ops2 s tr a m h,
  run (sstep addr_in actor_in) subs_init (ops1 ++ Forget id :: ops2) = Ok (s, tr) ->
  In h (recipients s a m) -> N.succ (h_core h) <> id.
Proof. exact unsubscribed_silent. Qed.

(** ... and everybody else is served as before, in the same order. *)
Theorem C05_others_unaffected : forall addr_in actor_in ops s tr id s' e a m,
  run (sstep addr_in actor_in) subs_init ops = Ok (s, tr) ->
  sstep addr_in actor_in s (Forget id) = Ok (s', e) ->
  view <$> recipients s' a m =
  view <$> List.filter (fun h => negb (N.eqb (N.succ (h_core h)) id)) (recipients s a m).
Proof. exact forget_others. Qed.

(** C39 *)
Theorem C39_same_recipients : forall addr_in actor_in ops s tr id t s' e a m,
  run (sstep addr_in actor_in) subs_init ops = Ok (s, tr) ->
  sstep addr_in actor_in s (Tag id t) = Ok (s', e) ->
  view <$> recipients s' a m = view <$> recipients s a m.
Proof. exact tag_invisible. Qed.

Theorem C39_idempotent : forall addr_in actor_in ops s tr id t s',
  run (sstep addr_in actor_in) subs_init ops = Ok (s, tr) ->
  tag addr_in actor_in s id t = Ok s' -> tag addr_in actor_in s' id t = Ok s'.
Proof. exact tag_idempotent. Qed.

(** Non-vacuity.  Address 1 is local, actors 1 and 2 are local, actor 9 is not. *)
Definition ex_addr (a : N) : bool := N.eqb a 1.
Definition ex_actor (a : N) : bool := negb (N.eqb a 9).
Definition ex_ops : list sop :=
  [Subscribe 1 5 1; Subscribe 9 5 1; Subscribe 2 5 1; Subscribe 1 6 1; Tag 1 7; Tag 1 7; Tag 3 7; Forget 5]%N.

Example C02_example :
  match run (sstep ex_addr ex_actor) subs_init ex_ops with
  | Ok (s, tr) => view <$> recipients s 1 5 = [(9, 2); (1, 0)]%N /\
                  sview <$> expected ex_actor (live ex_addr tr) 1 5 = [(9, 2); (1, 0)]%N /\
                  recipients s 1 9 = []
  | _ => False
  end.
Proof. vm_compute. done. Qed.

(** Before the unsubscription actor 2 was served, after it is not. *)
Example C05_example :
  match run (sstep ex_addr ex_actor) subs_init (take 7 ex_ops) with
  | Ok (s, _) => view <$> recipients s 1 5 = [(9, 2); (1, 0); (2, 4)]%N
  | _ => False
  end.
Proof. vm_compute. done. Qed.

(** Tagging really does something: the outermost tag of the served handler. *)
Example C39_example :
  match run (sstep ex_addr ex_actor) subs_init ex_ops with
  | Ok (s, _) => h_tags <$> recipients s 1 5 = [[7]; [7]]%N
  | _ => False
  end.
Proof. vm_compute. done. Qed.

Definition live_idb (s : subs) (id : N) : bool :=
  match sb_heap s !! id with
  | None => false
  | Some i => negb (i_intaddr i) || match sb_infos s !! i_addr i with
                                    | Some l => existsb (N.eqb id) l
                                    | None => false
                                    end
  end.
Lemma live_idb_sound s id : live_idb s id = true -> live_id s id.
Proof.
  unfold live_idb, live_id. destruct (sb_heap s !! id) as [i|]; [|done]. intros H. exists i. split; [done|].
  intros Hi. rewrite Hi in H. simpl in H. destruct (sb_infos s !! i_addr i) as [l|]; [|done].
  exists l. split; [done|]. apply existsb_exists in H as (x & Hx & He). by apply N.eqb_eq in He as <-.
Qed.
Example C02_protocol_safe_example : guarded (sstep ex_addr ex_actor) sop_ok subs_init ex_ops.
Proof.
  apply (guardedb_sound _ (fun s o => match o with
     | Subscribe _ _ _ => true | Forget id => live_idb s id | Tag id _ => live_idb s id end)).
  - intros s [| |] H; simpl in *; try done; by apply live_idb_sound.
  - vm_compute. done.
Qed.

(** Forgetting twice is outside the protocol: undefined behaviour. *)
Example C02_double_forget :
  run (sstep ex_addr ex_actor) subs_init [Subscribe 1 5 1; Subscribe 2 5 1; Forget 1; Forget 1]%N = Crash.
Proof. vm_compute. done. Qed.

Print Assumptions C02_recipients.
Print Assumptions C02_once.
Print Assumptions C02_typed.
Print Assumptions C02_protocol_safe.
Print Assumptions C05_silent.
Print Assumptions C05_others_unaffected.
Print Assumptions C39_same_recipients.
Print Assumptions C39_idempotent.
