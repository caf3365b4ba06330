(** Vocabulary of C71. *)
From stdpp Require Import base list strings.
From Coq Require Import Ascii.
From Verif Require Import Base DumpModel.

(** The text, for any way to write pointers, numbers and names. *)
Definition flat (wp wn wt : N -> string) (l : list tok) : string :=
  foldr (fun t s => String.append (match t with W x => x | TPtr p => wp p | TNum n => wn n | TName n => wt n end) s) EmptyString l.
Fixpoint count (c : ascii) (s : string) : nat := match s with EmptyString => 0 | String a s' => (if bool_decide (a = c) then 1 else 0) + count c s' end.
(** in the words of a text *)
Definition written (c : ascii) (l : list tok) : nat := list_sum (map (fun t => match t with W x => count c x | _ => 0 end) l).
Fixpoint asks_registration (m : msg) : Prop := match m with MRegReq _ _ _ _ => True | MCall o _ _ => asks_registration o | _ => False end.
Definition printed (e : pev) : Prop := match e with EPrint _ => True | _ => False end.
Global Instance printed_dec e : Decision (printed e).
Proof. destruct e; cbn; apply _. Defined.
