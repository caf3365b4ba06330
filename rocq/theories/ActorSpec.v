(** What the trace of an actor says about its links, names and resources; and the
    usage discipline some of the statements need.  Nothing here refers to the
    fields of the plugins except for [usage], which looks at the state and at
    whether the registry plugin has already voted. *)
From stdpp Require Import base list gmap.
From Verif Require Import Base Prog ActorModel.
Open Scope N_scope.

(** [up] happened, and [down] has not happened since. *)
Definition since {E : Type} (up down : E -> Prop) (tr : list E) : Prop :=
  exists t1 x t2, tr = t1 ++ x :: t2 /\ up x /\ Forall (fun y => ~ down y) t2.

(** A link was asked for, and neither answered nor given up. *)
Definition link_open (a : N) : list aev -> Prop :=
  since (fun x => exists o id, x = EvLink a o id)
        (fun x => (exists ok, x = EvLinkResp a ok) \/ x = EvNotify a \/ x = EvUnlinkReply a).
(** A registration or discovery was asked for, and not answered. *)
Definition reg_open (n : N) : list aev -> Prop :=
  since (eq (EvRegister n)) (fun x => exists ok, x = EvRegResp n ok).
Definition disc_open (n : N) : list aev -> Prop :=
  since (eq (EvDiscover n)) (fun x => exists r, x = EvDiscResp n r).
(** The name was registered (according to the registry), and not revoked. *)
Definition registered (n : N) : list aev -> Prop :=
  since (eq (EvRegResp n true)) (fun x => x = EvDereg n \/ x = EvRegResp n false).
(** The client was accepted, and has neither confirmed nor announced unlinking. *)
Definition linked (c : N) : list aev -> Prop :=
  since (fun x => exists r, x = EvLinkAns c r LOk) (fun x => x = EvUnlinkOk c \/ x = EvGotNotify c).
(** The link request was received, and neither answered nor given up. *)
Definition waiting (c r : N) : list aev -> Prop :=
  since (eq (EvLinkReq c r true)) (fun x => (exists a, x = EvLinkAns c r a) \/ x = EvGotNotify c \/ x = EvUnlinkOk c).
(** Link requests are different objects. *)
Definition link_req (x : aev) : option (N * N) := match x with EvLinkReq c r _ => Some (c, r) | _ => None end.
Definition distinct_reqs (tr : list aev) : Prop := NoDup (omap link_req tr).
(** The client was asked to unlink since it was accepted. *)
Definition asked (c : N) : list aev -> Prop :=
  since (fun x => exists id, x = EvUnlinkReq c id) (fun x => exists r, x = EvLinkAns c r LOk).
(** An init request was received; it was neither answered positively, nor given up
    because of a failed link. *)
Definition init_wanted : list aev -> Prop :=
  since (eq EvInitReq) (fun x => x = EvInitOk \/ x = EvInitErr PLc).
(** How often something happened. *)
Definition count (x : aev) (tr : list aev) : N := N.of_nat (List.length (filter (.= x) tr)).
Definition owned (i : N) (tr : list aev) : Prop := count (EvRelease i) tr < count (EvAcquire i) tr.

(** The state of the actor, as announced. *)
Definition state_of (tr : list aev) : astate := foldl (fun s x => match x with EvState _ n => n | _ => s end) AInitializing tr.
(** The answers to a link request. *)
Definition is_answer (c r : N) (x : aev) : bool := match x with EvLinkAns k q _ => bool_decide (k = c /\ q = r) | _ => false end.
Definition answers (c r : N) (tr : list aev) : list aev := filter (fun x => is_answer c r x = true) tr.

(** The plugins were asked to vote, or all of them have agreed before. *)
Definition init_polled (ev : list aev) : Prop := exists x, x ∈ ev /\ (x = EvInitOk \/ exists p b, x = EvInitVote p b).
Definition down_polled (ev : list aev) : Prop := exists x, x ∈ ev /\ (x = EvState AShuttingDown AShutDown \/ exists p b, x = EvShutVote p b).

(** Usage: names are registered and discovered, and servers linked, in the
    configuration of the plugin concerned (links by message handlers, too); resources are not acquired
    in the configuration of the starter, which is the last one. *)
Definition names_act (u : uact) : Prop :=
  match u with URegister _ | UDiscover _ _ _ => True | _ => False end.
Definition link_act (u : uact) : Prop := match u with ULink _ _ => True | _ => False end.
Definition acquire_act (u : uact) : Prop := match u with UAcquire _ => True | _ => False end.
Definition usage_cfg (cfg : plug -> list uact) : Prop :=
  Forall (fun u => ~ names_act u) (cfg PLc) /\
  Forall (fun u => ~ link_act u) (cfg PRg) /\
  Forall (fun u => ~ link_act u /\ ~ names_act u) (cfg PRs) /\
  Forall (fun u => ~ link_act u /\ ~ names_act u /\ ~ acquire_act u) (cfg PSt).
Definition usage (s : astore) (o : aop) : Prop :=
  match o with OUser u => names_act u -> x_st s = AInitializing /\ x_i s PRg = true | _ => True end.
Global Instance names_act_dec u : Decision (names_act u).
Proof. destruct u; cbn; apply _. Defined.
Global Instance usage_dec s o : Decision (usage s o).
Proof. destruct o; cbn; try apply _. Defined.
