(** Vocabulary of C67. *)
From stdpp Require Import base list gmap.
From Verif Require Import Base UnsubModel.
Open Scope N_scope.

Section spec.
Context (sig : N -> N).
(** Subscriptions which the code cannot tell apart: actor, signature, address. *)
Definition alike (a m d : N) (x : usub) : bool := bool_decide (u_actor x = a) && bool_decide (sig (u_meth x) = sig m) && bool_decide (u_addr x = d).
Definition count {A} (f : A -> bool) (l : list A) : nat := List.length (List.filter f l).
Definition made (a m d : N) (ev : list uev) : nat := count (fun e => match e with EMade x => alike a m d x | _ => false end) ev.
Definition asked (a m d : N) (ev : list uev) : nat := count (fun e => match e with EAsked x => alike a m d x | _ => false end) ev.
Definition gone (a m d : N) (ev : list uev) : nat := count (fun e => match e with EGone x => alike a m d x | _ => false end) ev.
(** ... which are in force. *)
Definition here (a m d : N) (s : ustate) : nat := count (alike a m d) (points s a).
Definition waiting (a m d : N) (s : ustate) : nat := count (alike a m d) (us_queue s).
(** No two methods of one signature at one address of one actor. *)
Definition told_apart (s : ustate) (a m d : N) : Prop := forall x, x ∈ points s a -> u_addr x = d -> sig (u_meth x) = sig m -> u_meth x = m.
End spec.
