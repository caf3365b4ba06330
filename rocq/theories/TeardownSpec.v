(** Vocabulary for the statements about subscriptions and teardown. *)
From stdpp Require Import base list gmap.
From Verif Require Import Base Prog TeardownModel.
Open Scope nat_scope.

Section spec.
Context (n : nat) (base : nat -> nat) (ext : N -> bool).

(** The plugins of an actor: at least address_maker, lifetime, init_shutdown and
    starter; the starter has subscribed to its own start message; the address of
    the actor belongs to its locality. *)
Record setup : Prop := Setup { su_n : 4 <= n; su_base : 1 <= base (starter n); su_addr : ext 0 = false }.

(** A subscription is in force: its plugin keeps it, or lifetime does for those
    made by the actor itself. *)
Definition live (s : dstate) (x : nat) : Prop :=
  match i_owner (info s x) with Some p => x ∈ d_own s p | None => x ∈ d_points s end.
(** What handlers are compared by. *)
Definition key (s : dstate) (x : nat) : hty * N := (i_type (info s x), i_addr (info s x)).
(** The numbers of the subscriptions with messages about unsubscription under way. *)
Definition un_of (m : hmsg) : option nat := match m with MUnsub x | MUnsubExt x => Some x | MCall _ _ => None end.
Definition pending (s : dstate) : list nat := omap un_of (d_q s).

Definition taken (s : dstate) (t : N) (a : N) : bool :=
  existsb (fun x => matches (HUser t) a (info s x) && match i_owner (info s x) with Some p => bool_decide (x ∈ d_own s p) | None => bool_decide (x ∈ d_points s) end)
    (seq 0 (List.length (d_infos s))).
Definition known (s : dstate) (t : N) (a : N) : bool := existsb (fun x => matches (HUser t) a (info s x)) (d_points s).
(** Usage: user code subscribes before the shutdown, at most one handler of a type
    per address; only the starter is used for addresses of the other locality;
    unsubscribe is called for what was subscribed; shutdown is requested once
    (C30); the plugins agree once. *)
Definition usage (s : dstate) (o : dop) : Prop :=
  match o with
  | OSubscribe t a => d_st s = DUp /\ ext a = false /\ taken s t a = false
  | OSubStarter t a => d_st s = DUp /\ taken s t a = false
  | OUnsubscribe t a => d_life s = true /\ known s t a = true
  | OShutdown => d_st s = DUp
  | OResume => d_hold s = true
  | _ => True
  end.
Global Instance usage_dec s o : Decision (usage s o).
Proof. destruct o; cbn; apply _. Defined.

(** The actor made its subscriptions, and did [ops]. *)
Definition ran (hold : bool) (ops : list dop) (s : dstate) (ev : list dev) : Prop :=
  run (dstep n ext) (dinit n base hold) ops = Ok (s, ev).
Definition used (hold : bool) (ops : list dop) : Prop := guarded (dstep n ext) usage (dinit n base hold) ops.
End spec.
