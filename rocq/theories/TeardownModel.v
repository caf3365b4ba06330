(** Model of the subscriptions of one actor, how they are taken back, and how the
    plugins of the actor are deactivated at its shutdown; with the supervisor of
    another context, at whose addresses the actor may be subscribed.

    Code: src/rotor/plugin/lifetime.cpp 31-132, src/rotor/plugin/plugin_base.cpp
    30-97, src/rotor/actor_base.cpp 74-93, 121-145, 172-204, 224-244,
    src/rotor/plugin/init_shutdown.cpp 54-73, src/rotor/supervisor.cpp 90-109,
    include/rotor/supervisor.h 395-442, 502-509,
    src/rotor/subscription_point.cpp 24-39, include/rotor/handler.h 137-139,
    src/rotor/subscription.cpp 25-45, 79-104 (as a set),
    src/rotor/plugin/foreigners_support.cpp 41-94, src/rotor/plugin/delivery.cpp
    39-46, src/rotor/plugin/child_manager.cpp 127.

    The actor has the plugins 0 .. n-1 in declaration order: 1 is lifetime, 2 is
    init_shutdown, the last one is the starter; the others are any plugins with
    any number of subscriptions of their own at the address of the actor, which do
    not override deactivate and handle_unsubscription.

    Simplifications:
    - a subscription is a number: it names the info object, the handler object
      and, in the other context, the info object made there for the same handler
      and address;
    - a handler is compared by its type ([hty]) only, as handler.h does: there is
      one actor, so actor_ptr is always the same;
    - the two localities have one FIFO queue each (C01, C15); of the messages only
      those about subscriptions and forwarded calls appear; a message for the
      other locality is put to its queue at once;
    - the subscription maps are sets of subscriptions: the recipients are found in
      them (C02, C05);
    - the other context does not shut down; confirmations of subscriptions are
      left out (see the model of the actor);
    - the shutdown votes of the plugins behind init_shutdown are one flag
      ([d_hold]: one of them still refuses);
    - [d_infos] is never pruned. *)
From stdpp Require Import base list gmap.
From Verif Require Import Base Prog.
Open Scope nat_scope.
Local Open Scope prog_scope.

(** typeid of a handler: the k-th handler of a plugin, or a handler of the user.
    Two methods of the user with the same signature have the same type. *)
Inductive hty := HPlug (p k : nat) | HUser (t : N).
Global Instance hty_eq_dec : EqDecision hty.
Proof. solve_decision. Defined.

(** subscription_info_t; [i_owner] is the plugin of a subscription with the tag
    PLUGIN, [None] stands for the tag ANONYMOUS; [i_un]: state UNSUBSCRIBING. *)
Record dinfo := DInfo { i_type : hty; i_addr : N; i_owner : option nat; i_un : bool }.
(** Messages to the actor or its supervisor: unsubscription_confirmation,
    external_unsubscription, handler_call. *)
Inductive hmsg := MUnsub (x : nat) | MUnsubExt (x : nat) | MCall (x : nat) (m : N).
(** Messages to the other supervisor: external_subscription,
    commit_unsubscription, and a message to one of its addresses. *)
Inductive fmsg := FSub (x : nat) | FCommit (x : nat) | FPost (a : N) (m : N).
Global Instance hmsg_eq_dec : EqDecision hmsg.
Proof. solve_decision. Defined.
Global Instance fmsg_eq_dec : EqDecision fmsg.
Proof. solve_decision. Defined.
Inductive dphase := DUp | DShutting | DDown.
Global Instance dphase_eq_dec : EqDecision dphase.
Proof. solve_decision. Defined.

Record dstate := DState {
  d_st : dphase;                 (* state: before SHUTTING_DOWN, SHUTTING_DOWN, SHUT_DOWN *)
  d_alive : bool;                (* in alive_actors of the supervisor *)
  d_life : bool;                 (* the pointer lifetime of the actor *)
  d_act : nat -> bool;           (* the pointer actor of a plugin *)
  d_own : nat -> list nat;       (* own_subscriptions of a plugin *)
  d_points : list nat;           (* points of lifetime *)
  d_infos : list dinfo;          (* info objects, by number *)
  d_deact : gset nat;            (* deactivating_plugins *)
  d_map : list nat;              (* subscription map of the locality *)
  d_q : list hmsg;
  d_fq : list fmsg;
  d_fpts : list nat;             (* foreign_points *)
  d_fmap : list nat;             (* subscription map of the other locality *)
  d_hold : bool;
  d_ishut : bool;                (* reaction SHUTDOWN of init_shutdown *)
  d_lshut : bool                 (* reaction SHUTDOWN of lifetime *)
}.
Definition w_st (s : dstate) (v : dphase) : dstate := DState v (d_alive s) (d_life s) (d_act s) (d_own s) (d_points s) (d_infos s) (d_deact s) (d_map s) (d_q s) (d_fq s) (d_fpts s) (d_fmap s) (d_hold s) (d_ishut s) (d_lshut s).
Definition w_alive (s : dstate) (v : bool) : dstate := DState (d_st s) v (d_life s) (d_act s) (d_own s) (d_points s) (d_infos s) (d_deact s) (d_map s) (d_q s) (d_fq s) (d_fpts s) (d_fmap s) (d_hold s) (d_ishut s) (d_lshut s).
Definition w_life (s : dstate) (v : bool) : dstate := DState (d_st s) (d_alive s) v (d_act s) (d_own s) (d_points s) (d_infos s) (d_deact s) (d_map s) (d_q s) (d_fq s) (d_fpts s) (d_fmap s) (d_hold s) (d_ishut s) (d_lshut s).
Definition w_act (s : dstate) (v : nat -> bool) : dstate := DState (d_st s) (d_alive s) (d_life s) v (d_own s) (d_points s) (d_infos s) (d_deact s) (d_map s) (d_q s) (d_fq s) (d_fpts s) (d_fmap s) (d_hold s) (d_ishut s) (d_lshut s).
Definition w_own (s : dstate) (v : nat -> list nat) : dstate := DState (d_st s) (d_alive s) (d_life s) (d_act s) v (d_points s) (d_infos s) (d_deact s) (d_map s) (d_q s) (d_fq s) (d_fpts s) (d_fmap s) (d_hold s) (d_ishut s) (d_lshut s).
Definition w_points (s : dstate) (v : list nat) : dstate := DState (d_st s) (d_alive s) (d_life s) (d_act s) (d_own s) v (d_infos s) (d_deact s) (d_map s) (d_q s) (d_fq s) (d_fpts s) (d_fmap s) (d_hold s) (d_ishut s) (d_lshut s).
Definition w_infos (s : dstate) (v : list dinfo) : dstate := DState (d_st s) (d_alive s) (d_life s) (d_act s) (d_own s) (d_points s) v (d_deact s) (d_map s) (d_q s) (d_fq s) (d_fpts s) (d_fmap s) (d_hold s) (d_ishut s) (d_lshut s).
Definition w_deact (s : dstate) (v : gset nat) : dstate := DState (d_st s) (d_alive s) (d_life s) (d_act s) (d_own s) (d_points s) (d_infos s) v (d_map s) (d_q s) (d_fq s) (d_fpts s) (d_fmap s) (d_hold s) (d_ishut s) (d_lshut s).
Definition w_map (s : dstate) (v : list nat) : dstate := DState (d_st s) (d_alive s) (d_life s) (d_act s) (d_own s) (d_points s) (d_infos s) (d_deact s) v (d_q s) (d_fq s) (d_fpts s) (d_fmap s) (d_hold s) (d_ishut s) (d_lshut s).
Definition w_q (s : dstate) (v : list hmsg) : dstate := DState (d_st s) (d_alive s) (d_life s) (d_act s) (d_own s) (d_points s) (d_infos s) (d_deact s) (d_map s) v (d_fq s) (d_fpts s) (d_fmap s) (d_hold s) (d_ishut s) (d_lshut s).
Definition w_fq (s : dstate) (v : list fmsg) : dstate := DState (d_st s) (d_alive s) (d_life s) (d_act s) (d_own s) (d_points s) (d_infos s) (d_deact s) (d_map s) (d_q s) v (d_fpts s) (d_fmap s) (d_hold s) (d_ishut s) (d_lshut s).
Definition w_fpts (s : dstate) (v : list nat) : dstate := DState (d_st s) (d_alive s) (d_life s) (d_act s) (d_own s) (d_points s) (d_infos s) (d_deact s) (d_map s) (d_q s) (d_fq s) v (d_fmap s) (d_hold s) (d_ishut s) (d_lshut s).
Definition w_fmap (s : dstate) (v : list nat) : dstate := DState (d_st s) (d_alive s) (d_life s) (d_act s) (d_own s) (d_points s) (d_infos s) (d_deact s) (d_map s) (d_q s) (d_fq s) (d_fpts s) v (d_hold s) (d_ishut s) (d_lshut s).
Definition w_hold (s : dstate) (v : bool) : dstate := DState (d_st s) (d_alive s) (d_life s) (d_act s) (d_own s) (d_points s) (d_infos s) (d_deact s) (d_map s) (d_q s) (d_fq s) (d_fpts s) (d_fmap s) v (d_ishut s) (d_lshut s).
Definition w_ishut (s : dstate) (v : bool) : dstate := DState (d_st s) (d_alive s) (d_life s) (d_act s) (d_own s) (d_points s) (d_infos s) (d_deact s) (d_map s) (d_q s) (d_fq s) (d_fpts s) (d_fmap s) (d_hold s) v (d_lshut s).
Definition w_lshut (s : dstate) (v : bool) : dstate := DState (d_st s) (d_alive s) (d_life s) (d_act s) (d_own s) (d_points s) (d_infos s) (d_deact s) (d_map s) (d_q s) (d_fq s) (d_fpts s) (d_fmap s) (d_hold s) (d_ishut s) v.

Inductive dev :=
| ESub (x : nat)                 (* subscribed *)
| EUnsubReq (x : nat)            (* x becomes UNSUBSCRIBING *)
| EGone (x : nat)                (* the actor forgets x: unsubscribed *)
| EFGone (x : nat)               (* the other supervisor forgets x *)
| EInvoke (x : nat) (m : N)      (* a handler is called with a forwarded message *)
| EDrop (x : nat) (m : N)        (* a forwarded call without effect *)
| EDeact                         (* deactivate_plugins *)
| EPlugDown (p : nat)            (* a plugin is deactivated *)
| EDown                          (* SHUT_DOWN *)
| ERemove.                       (* the supervisor forgets the actor *)
Global Instance dev_eq_dec : EqDecision dev.
Proof. solve_decision. Defined.

Inductive dop :=
| OSubscribe (t : N) (a : N)     (* actor_base_t::subscribe *)
| OSubStarter (t : N) (a : N)    (* starter_plugin_t::subscribe_actor *)
| OUnsubscribe (t : N) (a : N)   (* actor_base_t::unsubscribe *)
| OShutdown                      (* shutdown request *)
| OResume                        (* the last plugin before init_shutdown agrees *)
| ODeliver                       (* the next message in the queue of the actor's locality *)
| OFDeliver                      (* the same in the other locality *)
| OPost (a : N) (m : N)          (* somebody sends to an address of the other locality *)
| ORemove.                       (* remove_child *)

Notation P := (prog dstate dev).
Definition updn {A} (f : nat -> A) (p : nat) (b : A) : nat -> A := fun q => if decide (q = p) then b else f q.
Definition dead : dinfo := DInfo (HUser 0) 0 None false.

Section model.
(** Number of plugins, number of subscriptions each of them makes in activate(),
    which addresses belong to the other locality. *)
Context (n : nat) (base : nat -> nat) (ext : N -> bool).
Definition lifetime := 1.
Definition init_shutdown := 2.
Definition starter := n - 1.

Definition info (s : dstate) (x : nat) : dinfo := nth x (d_infos s) dead.
Definition isext (s : dstate) (x : nat) : bool := ext (i_addr (info s x)).
(** subscription_point_t::operator==: address and handler; handler.h:137-139 *)
Definition matches (t : hty) (a : N) (i : dinfo) : bool := bool_decide (i_type i = t) && bool_decide (i_addr i = a).
Definition same (s : dstate) (x y : nat) : bool := matches (i_type (info s x)) (i_addr (info s x)) (info s y).
(** subscription_container_t::find: the last one which is equal *)
Definition find_last (f : nat -> bool) (l : list nat) : option nat := head (rev (filter f l)).
Definition erase (x : nat) (l : list nat) : list nat := filter (fun y => y <> x) l.

(** supervisor.cpp:90-105, subscription.cpp:25-45 *)
Definition subscribe (t : hty) (a : N) (o : option nat) : P nat :=
  s <- get ;;
  let x := List.length (d_infos s) in
  modify (fun s => w_infos s (d_infos s ++ [DInfo t a o false])) ;;
  (if ext a then modify (fun s => w_fq s (d_fq s ++ [FSub x])) else modify (fun s => w_map s (d_map s ++ [x]))) ;;
  s <- get ;;
  (if d_life s then skip else crash) ;;
  modify (fun s => w_points s (d_points s ++ [x])) ;;
  emit (ESub x) ;; ret x.
(** supervisor.h:411-442 *)
Definition plug_subscribe (p : nat) (t : hty) (a : N) : P unit :=
  x <- subscribe t a (Some p) ;; modify (fun s => w_own s (updn (d_own s) p (d_own s p ++ [x]))).

(** supervisor.cpp:107-109, subscription.cpp:79-104 *)
Definition forget_map (x : nat) : P unit :=
  s <- get ;;
  when (negb (isext s x)) (check (bool_decide (x ∈ d_map s)) ;; modify (fun s => w_map s (erase x (d_map s)))) ;;
  emit (EGone x).
(** lifetime.cpp:57-73 *)
Definition unsubscribe_info (x : nat) : P unit :=
  s <- get ;;
  let i := info s x in
  when (negb (i_un i)) (
    modify (fun s => w_infos s (<[x := DInfo (i_type i) (i_addr i) (i_owner i) true]> (d_infos s))) ;;
    modify (fun s => w_q s (d_q s ++ [if ext (i_addr i) then MUnsubExt x else MUnsub x])) ;;
    emit (EUnsubReq x)).
(** lifetime.cpp:75-79, actor_base.h:228 (at the address of the actor), and supervisor.h:502-509
    if the actor is a supervisor (for other actors see C67) *)
Definition unsubscribe (t : hty) (a : N) : P unit :=
  s <- get ;;
  (if d_life s then skip else crash) ;;
  match find_last (fun y => matches t a (info s y)) (d_points s) with
  | Some x => unsubscribe_info x
  | None => check false
  end.

(** actor_base.cpp:84-93 *)
Definition commit_deactivation (p : nat) : P unit := modify (fun s => w_deact s (d_deact s ∖ {[p]})) ;; emit (EPlugDown p).
(** plugin_base.cpp:36-52 *)
Definition base_deactivate (p : nat) : P unit :=
  s <- get ;;
  when (d_act s p) (
    if bool_decide (d_own s p = []) then
      commit_deactivation p ;;
      modify (fun s => w_act s (updn (d_act s) p false)) ;;
      when (bool_decide (p = lifetime)) (modify (fun s => w_lshut s false))
    else
      check (d_life s) ;;
      each (rev (d_own s p)) unsubscribe_info).
(** actor_base.cpp:74-82; lifetime.cpp:46-48 *)
Definition deactivate_plugins : P unit :=
  emit EDeact ;;
  each (rev (seq 0 n)) (fun p =>
    s <- get ;;
    when (d_act s p) (
      modify (fun s => w_deact s (d_deact s ∪ {[p]})) ;;
      when (negb (bool_decide (p = lifetime))) (base_deactivate p))).

(** lifetime.cpp:81-98, 130-133 *)
Definition anonymous (s : dstate) (x : nat) : bool := match i_owner (info s x) with None => true | Some _ => false end.
Definition lifetime_unsubscribe : P unit :=
  s <- get ;;
  each (rev (d_points s)) (fun x => if anonymous s x then unsubscribe_info x else modify (fun s => w_points s (erase x (d_points s)))) ;;
  s <- get ;;
  when (bool_decide (d_points s = []) && bool_decide (size (d_deact s) = 1)) (
    base_deactivate lifetime ;; modify (fun s => w_life s false)).
(** lifetime.cpp:50-55 *)
Definition lifetime_shutdown : P bool :=
  s <- get ;;
  if bool_decide (d_points s = []) && bool_decide (d_own s lifetime = []) then ret true
  else lifetime_unsubscribe ;; ret false.
(** actor_base.cpp:121-145 *)
Definition shutdown_finish : P unit :=
  s <- get ;; check (bool_decide (d_deact s = ∅)) ;; modify (fun s => w_st s DDown) ;; emit EDown.
(** actor_base.cpp:172-193 *)
Definition shutdown_continue : P unit :=
  s <- get ;;
  check (bool_decide (d_st s = DShutting)) ;;
  if d_hold s then skip
  else
    when (d_ishut s) (deactivate_plugins ;; modify (fun s => w_ishut s false)) ;;
    s <- get ;;
    if d_lshut s then
      b <- lifetime_shutdown ;;
      if b : bool then modify (fun s => w_lshut s false) ;; shutdown_finish else skip
    else shutdown_finish.

(** plugin_base.cpp:65-83 *)
Definition forget (p : nat) (x : nat) : P bool :=
  s <- get ;;
  match find_last (same s x) (d_own s p) with
  | Some y =>
      check (negb (anonymous s y)) ;;
      (if d_act s p then skip else crash) ;;
      forget_map y ;;
      modify (fun s => w_own s (updn (d_own s) p (erase y (d_own s p)))) ;;
      s <- get ;;
      when (bool_decide (d_own s p = [])) (
        commit_deactivation p ;;
        when (bool_decide (d_st s = DShutting)) shutdown_continue ;;
        modify (fun s => w_act s (updn (d_act s) p false))) ;;
      ret true
  | None => ret false
  end.
(** plugin_base.cpp:87-97 *)
Definition base_unsubscription (p : nat) (x : nat) (external : bool) : P bool :=
  if external then
    s <- get ;;
    ok <- forget p x ;;
    check ok ;;
    (if d_act s p then skip else crash) ;;
    modify (fun s => w_fq s (d_fq s ++ [FCommit x])) ;;
    ret ok
  else forget p x.
(** lifetime.cpp:112-128 *)
Definition handle_unsubscription (p : nat) (x : nat) (external : bool) : P bool :=
  s <- get ;;
  if bool_decide (p = lifetime) && anonymous s x then
    match find_last (same s x) (d_points s) with
    | Some y =>
        (if d_act s p then skip else crash) ;;
        forget_map y ;;
        modify (fun s => w_points s (erase y (d_points s))) ;;
        s <- get ;;
        when (bool_decide (d_points s = [])) (base_deactivate lifetime) ;;
        ret true
    | None => crash
    end
  else base_unsubscription p x external.
(** actor_base.cpp:195-204, 224-244 *)
Fixpoint poll (l : list nat) (x : nat) (external : bool) : P unit :=
  match l with
  | [] => skip
  | p :: r => b <- handle_unsubscription p x external ;; if b : bool then skip else poll r x external
  end.

(** foreigners_support.cpp:49-71 *)
Definition on_call (x : nat) (m : N) : P unit :=
  s <- get ;;
  if d_alive s && negb (bool_decide (d_st s = DDown)) && d_life s && bool_decide (is_Some (find_last (same s x) (d_points s)))
  then emit (EInvoke x m) else emit (EDrop x m).

(** The subscriptions 0 and 1 are those of lifetime to the messages about
    unsubscription; without them the messages reach nobody. *)
Definition deliver (msg : hmsg) : P unit :=
  s <- get ;;
  match msg with
  | MUnsub x => when (bool_decide (0 ∈ d_map s)) (poll (rev (seq 0 n)) x false)
  | MUnsubExt x => when (bool_decide (1 ∈ d_map s)) (poll (rev (seq 0 n)) x true)
  | MCall x m => on_call x m
  end.
(** foreigners_support.cpp:73-94, delivery.cpp:39-46 *)
Definition fdeliver (msg : fmsg) : P unit :=
  match msg with
  | FSub x => modify (fun s => w_fmap (w_fpts s (d_fpts s ++ [x])) (d_fmap s ++ [x]))
  | FCommit x =>
      s <- get ;;
      match find_last (same s x) (d_fpts s) with
      | Some y =>
          check (bool_decide (y ∈ d_fmap s)) ;;
          modify (fun s => w_fmap (w_fpts s (erase y (d_fpts s))) (erase y (d_fmap s))) ;;
          emit (EFGone y)
      | None => crash
      end
  | FPost a m =>
      modify (fun s => w_q s (d_q s ++ ((fun x => MCall x m) <$> filter (fun x => i_addr (info s x) = a) (d_fmap s))))
  end.

Definition dprog (o : dop) : P unit :=
  match o with
  | OSubscribe t a => subscribe (HUser t) a None ;; skip
  | OSubStarter t a => plug_subscribe starter (HUser t) a
  | OUnsubscribe t a => unsubscribe (HUser t) a
  | OShutdown =>
      (* init_shutdown.cpp:54-64 *)
      modify (fun s => w_st s DShutting) ;; shutdown_continue
  | OResume =>
      modify (fun s => w_hold s false) ;;
      s <- get ;; when (bool_decide (d_st s = DShutting)) shutdown_continue
  | ODeliver =>
      s <- get ;;
      match d_q s with [] => skip | msg :: r => modify (fun s => w_q s r) ;; deliver msg end
  | OFDeliver =>
      s <- get ;;
      match d_fq s with [] => skip | msg :: r => modify (fun s => w_fq s r) ;; fdeliver msg end
  | OPost a m => modify (fun s => w_fq s (d_fq s ++ [FPost a m]))
  | ORemove =>
      s <- get ;;
      when (bool_decide (d_st s = DDown)) (modify (fun s => w_alive s false) ;; emit ERemove)
  end.
Definition dstep (s : dstate) (o : dop) : res (dstate * list dev) := to_step (dprog o) s.

(** After do_initialize: actor_base.cpp:54-58; every plugin has made its own
    subscriptions; lifetime has three (lifetime.cpp:39-41). *)
Definition own_count (p : nat) : nat := if decide (p = lifetime) then 3 else base p.
Definition plug_infos (p : nat) : list dinfo := (fun k => DInfo (HPlug p k) 0 (Some p) false) <$> seq 0 (own_count p).
(* lifetime comes first: a plugin before it has no subscriptions, it could not
   make one *)
Definition first_infos (l : list nat) : list dinfo := concat (plug_infos <$> l).
Definition offset (p : nat) : nat := List.length (first_infos (seq lifetime (p - lifetime))).
Definition dinit (hold : bool) : dstate :=
  let infos := first_infos (seq lifetime (n - lifetime)) in
  let all := seq 0 (List.length infos) in
  DState DUp true true (fun p => bool_decide (p < n))
    (fun p => if bool_decide (lifetime <= p < n) then seq (offset p) (own_count p) else [])
    all infos ∅ all [] [] [] [] hold true true.
End model.
