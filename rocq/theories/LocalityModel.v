(** Model of the localities of a system: which supervisor leads, where
    subscriptions are stored, which queue a message is put to and which map the
    dispatcher looks at.
    - src/rotor/supervisor.cpp 41-51 (make_address, instantiate_address),
      src/rotor/asio/supervisor_asio.cpp 36 (the strand is the locality);
    - src/rotor/plugin/locality.cpp 31-43 (the choice of the leader);
    - src/rotor/plugin/delivery.cpp 28-37 (the dispatcher reads the queue of the
      leader and the map of its own supervisor), 39-50 (delivery);
    - include/rotor/supervisor.h 130 (do_process), 182 (put), 445-469 (process);
    - src/rotor/supervisor.cpp 90-109 (subscribe, commit_unsubscription);
    - src/rotor/subscription.cpp 26-45 (materialize), 47-62 (update), 75-104
      (forget); src/rotor/subscription_point.cpp 39-44 (tag);
    - src/rotor/plugin/foreigners_support.cpp 49-78 (on_call,
      on_subscription_external).

    Simplifications: one message type; [enqueue] puts to the queue of the leader
    at once (the transfer of inbound messages is in KernelModel.v); the
    confirmation of a subscription is not a message here, and an address or a
    handler is never destroyed (their life is in TeardownModel.v); the supervisors
    are all alive; a supervisor answers the system messages to its own address
    (its subscriptions for them are in the map of its leader: supervisor.cpp 93). *)
From stdpp Require Import base list gmap.
From Verif Require Import Base.

(** The value of [address_t::locality]: the root supervisor of the tree, or the
    strand of the supervisor. *)
Inductive place := AtRoot (s : nat) | AtStrand (n : nat).
Global Instance place_eq_dec : EqDecision place.
Proof. solve_decision. Defined.

(** Which [make_address] a supervisor has: that of supervisor_t or that of
    supervisor_asio_t with its strand. *)
Inductive maker := Default | Strand (n : nat).
Global Instance maker_eq_dec : EqDecision maker.
Proof. solve_decision. Defined.

Record sup := Sup {
  s_parent : option nat;
  s_root : nat;             (* the end of the walk over the parents, supervisor.cpp 42-45 *)
  s_place : place;          (* locality of its address and of the addresses it makes *)
  s_leader : nat            (* locality_leader *)
}.

(** A message: of the user to an address, external_subscription_t to the
    supervisor of the address, handler_call_t to the supervisor of a handler. *)
Inductive lmsg :=
| MUser (m : nat) (a : nat)
| MSubscribe (a h : nat)
| MCall (h m a : nat).

Record world := World {
  w_sup : gmap nat sup;
  w_addr : gmap nat nat;              (* address -> its supervisor *)
  w_hand : gmap nat nat;              (* handler -> supervisor of its actor *)
  w_map : gmap nat (list (nat * nat));  (* own subscription_map of a supervisor: address, handler *)
  w_queue : gmap nat (list lmsg)      (* own queue of a supervisor *)
}.

Definition init : world := World ∅ ∅ ∅ ∅ ∅.

Inductive lev :=
| EForward (l : nat) (x : lmsg)        (* handed to another locality: supervisor.h 464 *)
| EDispatch (l : nat) (x : lmsg)       (* the dispatcher of [l] looks at its own map *)
| ERun (l : nat) (h m a : nat)         (* a handler runs, called by the dispatcher of [l] *)
| ELost (l : nat) (x : lmsg)           (* a system message nobody answers in this map *)
| ETagged (a h : nat).

Inductive lop :=
| OSup (s : nat) (p : option nat) (k : maker)
| OAddr (a s : nat)
| OHandler (h s : nat)
| OSubscribe (h a : nat)               (* the actor of the handler subscribes it *)
| OForget (h a : nat)                  (* commit_unsubscription by the supervisor of the address *)
| OTag (h a : nat)                     (* subscription_info_t::tag by the actor of the handler *)
| OSend (s m a : nat)                  (* code in the context of supervisor [s] sends *)
| OProcess (s : nat).                  (* supervisor [s] runs one turn of the loop of do_process *)

Definition set_map (w : world) (s : nat) (l : list (nat * nat)) : world :=
  World (w_sup w) (w_addr w) (w_hand w) (<[s := l]> (w_map w)) (w_queue w).
Definition set_queue (w : world) (s : nat) (q : list lmsg) : world :=
  World (w_sup w) (w_addr w) (w_hand w) (w_map w) (<[s := q]> (w_queue w)).
Definition map_of (w : world) (s : nat) : list (nat * nat) := default [] (w_map w !! s).
Definition queue_of (w : world) (s : nat) : list lmsg := default [] (w_queue w !! s).

(** Reading the fields of a supervisor; a supervisor which does not exist is
    undefined behaviour and excluded by the callers. *)
Definition leader (w : world) (s : nat) : nat :=
  match w_sup w !! s with Some x => s_leader x | None => s end.
Definition place_of (w : world) (s : nat) : place :=
  match w_sup w !! s with Some x => s_place x | None => AtRoot s end.

(** supervisor.cpp 41-47: the walk to the root, then instantiate_address;
    supervisor_asio.cpp 36 *)
Definition root_of (w : world) (s : nat) (p : option nat) : nat :=
  match p with
  | None => s
  | Some q => match w_sup w !! q with Some x => s_root x | None => s end
  end.
Definition make_address (w : world) (s : nat) (p : option nat) (k : maker) : place :=
  match k with Default => AtRoot (root_of w s p) | Strand n => AtStrand n end.

(** locality.cpp 31-43 *)
Definition choose_leader (w : world) (s : nat) (p : option nat) (x : place) : nat :=
  match p with
  | None => s
  | Some q => if decide (place_of w q = x) then leader w q else s
  end.

(** supervisor.h 182 *)
Definition put (w : world) (s : nat) (x : lmsg) : world :=
  set_queue w (leader w s) (queue_of w (leader w s) ++ [x]).

(** The address of a message: the address of the user, or the address of a
    supervisor. *)
Definition dest (w : world) (x : lmsg) : option nat :=
  match x with
  | MUser _ a | MSubscribe a _ => w_addr w !! a
  | MCall h _ _ => w_hand w !! h
  end.

(** supervisor.cpp 90-105 with subscription.cpp 26-45, called on supervisor [s] *)
Definition subscribe (w : world) (s h a : nat) : res world :=
  match w_addr w !! a with
  | None => Crash
  | Some t =>
      let l := leader w s in
      if decide (place_of w t = place_of w l)
      then Ok (set_map w l (map_of w l ++ [(a, h)]))
      else Ok (put w s (MSubscribe a h))
  end.

(** subscription.cpp 75-104: the entry leaves, the asserts on the way *)
Fixpoint drop_first (x : nat * nat) (l : list (nat * nat)) : option (list (nat * nat)) :=
  match l with
  | [] => None
  | y :: l' => if decide (y = x) then Some l' else option_map (cons y) (drop_first x l')
  end.
Definition forget (w : world) (s h a : nat) : res world :=
  let l := leader w s in
  match drop_first (a, h) (map_of w l) with
  | None => AssertFail
  | Some m => Ok (set_map w l m)
  end.

(** subscription_point.cpp 39-44 and subscription.cpp 47-62: the map is the one
    of the supervisor of the handler itself, not that of its leader. *)
Definition tag (w : world) (h a : nat) : res (world * list lev) :=
  match w_addr w !! a, w_hand w !! h with
  | Some t, Some s =>
      if decide (place_of w t = place_of w s)
      then if decide ((a, h) ∈ map_of w s) then Ok (w, [ETagged a h]) else AssertFail
      else Ok (w, [ETagged a h])
  | _, _ => Crash
  end.

(** delivery.cpp 39-50: a handler is external if its actor lives in another
    locality than the supervisor of the map (subscription.cpp 31). *)
Definition recipients (w : world) (l a : nat) : list nat :=
  omap (fun '(b, h) => if decide (b = a) then Some h else None) (map_of w l).
Definition external (w : world) (l h : nat) : bool :=
  match w_hand w !! h with Some s => bool_decide (place_of w s <> place_of w l) | None => false end.
Fixpoint call_external (w : world) (l m a : nat) (hs : list nat) : world :=
  match hs with
  | [] => w
  | h :: hs' =>
      let w1 := match w_hand w !! h with
                | Some s => if external w l h then put w s (MCall h m a) else w
                | None => w
                end in
      call_external w1 l m a hs'
  end.
Definition run_internal (w : world) (l m a : nat) (hs : list nat) : list lev :=
  omap (fun h => if external w l h then None else Some (ERun l h m a)) hs.

(** One turn of the loop of process (supervisor.h 445-469), run by the leader
    [l]: [delivery] is the plugin of the leader, its queue is the queue of the
    leader of [l] (delivery.cpp 31) and its map is the map of [l]. *)
Definition process1 (w : world) (l : nat) : res (world * list lev) :=
  let ql := leader w l in
  match queue_of w ql with
  | [] => Ok (w, [])
  | x :: q =>
      let w0 := set_queue w ql q in
      match dest w x with
      | None => Crash
      | Some t =>
          if decide (place_of w t = place_of w l) then
            match x with
            | MUser m a =>
                let hs := recipients w0 l a in
                Ok (call_external w0 l m a hs, EDispatch l x :: run_internal w0 l m a hs)
            | MSubscribe a h =>
                (* the handler of the supervisor [t] is in the map of its leader *)
                if decide (leader w t = l)
                then rbind (subscribe w0 t h a) (fun w1 => Ok (w1, [EDispatch l x]))
                else Ok (w0, [EDispatch l x; ELost l x])
            | MCall h m a =>
                if decide (leader w t = l)
                then Ok (w0, [EDispatch l x; ERun l h m a])
                else Ok (w0, [EDispatch l x; ELost l x])
            end
          else Ok (put w0 t x, [EForward l x])
      end
  end.

Definition step (w : world) (o : lop) : res (world * list lev) :=
  match o with
  | OSup s p k =>
      let x := make_address w s p k in
      let l := choose_leader w s p x in
      Ok (World (<[s := Sup p (root_of w s p) x l]> (w_sup w)) (w_addr w) (w_hand w) (w_map w) (w_queue w), [])
  | OAddr a s => Ok (World (w_sup w) (<[a := s]> (w_addr w)) (w_hand w) (w_map w) (w_queue w), [])
  | OHandler h s => Ok (World (w_sup w) (w_addr w) (<[h := s]> (w_hand w)) (w_map w) (w_queue w), [])
  | OSubscribe h a =>
      match w_hand w !! h with
      | Some s => rbind (subscribe w s h a) (fun w1 => Ok (w1, []))
      | None => Crash
      end
  | OForget h a =>
      match w_addr w !! a with
      | Some t => rbind (forget w t h a) (fun w1 => Ok (w1, []))
      | None => Crash
      end
  | OTag h a => tag w h a
  | OSend s m a =>
      match w_addr w !! a with
      | Some _ => Ok (put w s (MUser m a), [])
      | None => Crash
      end
  | OProcess s => process1 w (leader w s)
  end.
