(** What is said about localities (C58). *)
From stdpp Require Import base list gmap.
From Verif Require Import Base LocalityModel.

Definition exists_sup (w : world) (s : nat) : Prop := is_Some (w_sup w !! s).

(** The rules of the environment: objects are new, and what they refer to exists. *)
Definition ok (w : world) (o : lop) : Prop :=
  match o with
  | OSup s p _ => w_sup w !! s = None /\ w_map w !! s = None /\ w_queue w !! s = None /\
                  (forall q, p = Some q -> exists_sup w q)
  | OAddr a s => w_addr w !! a = None /\ exists_sup w s
  | OHandler h s => w_hand w !! h = None /\ exists_sup w s
  | OSubscribe h a => is_Some (w_hand w !! h) /\ is_Some (w_addr w !! a)
  | OForget h a => exists t, w_addr w !! a = Some t /\ (a, h) ∈ map_of w (leader w t)
  | OTag h a => exists t s, w_addr w !! a = Some t /\ w_hand w !! h = Some s /\
                            (place_of w t <> place_of w s \/ (a, h) ∈ map_of w (leader w s))
  | OSend s _ a => exists_sup w s /\ is_Some (w_addr w !! a)
  | OProcess s => exists_sup w s
  end.

Definition reaches (ops : list lop) (w : world) (ev : list lev) : Prop :=
  guarded step ok init ops /\ run step init ops = Ok (w, ev).

(** [up w s t]: [t] is reached from [s] over the parents. *)
Inductive up (w : world) : nat -> nat -> Prop :=
| up_refl s : exists_sup w s -> up w s s
| up_step s x p t : w_sup w !! s = Some x -> s_parent x = Some p -> up w p t -> up w s t.

(** The same, over supervisors of one locality only. *)
Inductive up_same (w : world) (k : place) : nat -> nat -> Prop :=
| us_refl s x : w_sup w !! s = Some x -> s_place x = k -> up_same w k s s
| us_step s x p t : w_sup w !! s = Some x -> s_place x = k -> s_parent x = Some p ->
                    up_same w k p t -> up_same w k s t.

(** [s] has no parent, or a parent in another locality. *)
Definition top_of_place (w : world) (s : nat) : Prop :=
  exists x, w_sup w !! s = Some x /\
    forall p, s_parent x = Some p -> place_of w p <> s_place x.

(** One leader per locality. *)
Definition coherent (w : world) : Prop :=
  forall s t, exists_sup w s -> exists_sup w t -> place_of w s = place_of w t -> leader w s = leader w t.

(** A rule which makes it so: a supervisor which is not in the locality of its
    parent opens a locality nobody is in. *)
Definition orderly (w : world) (o : lop) : Prop :=
  match o with
  | OSup s p k =>
      (exists q, p = Some q /\ place_of w q = make_address w s p k) \/
      (forall t, exists_sup w t -> place_of w t <> make_address w s p k)
  | _ => True
  end.

(** How many subscriptions of the handler on the address the map holds. *)
Definition subs_in (w : world) (l a h : nat) : nat := count_occ Nat.eq_dec (recipients w l a) h.

Definition sups_default (ops : list lop) : Prop :=
  Forall (fun o => match o with OSup _ _ (Strand _) => False | _ => True end) ops.

(** The calls of one handler among events, and the calls under way to it. *)
Definition is_run (h m a : nat) (x : lev) : bool :=
  match x with ERun _ h' m' a' => bool_decide (h' = h /\ m' = m /\ a' = a) | _ => false end.
Definition is_call (h m a : nat) (x : lmsg) : bool :=
  match x with MCall h' m' a' => bool_decide (h' = h /\ m' = m /\ a' = a) | _ => false end.
Definition count {A} (f : A -> bool) (l : list A) : nat := length (List.filter f l).

(** An event is at the place it belongs to: a message is dispatched by the leader of
    its address and handed over by others, a handler runs at its own leader, and no
    system message is lost. *)
Definition right_place (w : world) (x : lev) : Prop :=
  match x with
  | ELost _ _ => False
  | EDispatch l x => exists t, dest w x = Some t /\ leader w t = l
  | EForward l x => exists t, dest w x = Some t /\ leader w t <> l
  | ERun l h _ _ => exists s, w_hand w !! h = Some s /\ leader w s = l
  | ETagged _ _ => True
  end.
