(** Vocabulary of C69. *)
From stdpp Require Import base list gmap.
From Verif Require Import Base IterModel.
Open Scope N_scope.

Definition handlers (s : istate) (key : N) : list N := match i_map s !! key with Some v => contents v | None => [] end.
Definition room (s : istate) (key : N) : nat := match i_map s !! key with Some v => cap v | None => 0 end.
(** What was asked for before the delivery. *)
Definition made (l : list ieff) (s : istate) : Prop := effects iinit l = Ok s.
Definition new_here (key : N) (l : list ieff) : list N := omap (fun e => match e with ESubscribe k h => if decide (k = key) then Some h else None | EForget _ _ => None end) l.
Definition forgets_here (key : N) (l : list ieff) : Prop := exists h, EForget key h ∈ l.
(** Subscriptions made here by the calls [i .. i + n - 1]. *)
Fixpoint new_by (does : nat -> list ieff) (key : N) (n i : nat) : list N :=
  match n with O => [] | S n' => new_here key (does i) ++ new_by does key n' (S i) end.
(** The vector need not move while calls are still to be made. *)
Definition enough (strict : bool) (does : nat -> list ieff) (key : N) (s : istate) : Prop :=
  handlers s key = [] \/
  (length (handlers s key) + length (new_by does key (if strict then length (handlers s key) else length (handlers s key) - 1) 0) <= room s key)%nat.
