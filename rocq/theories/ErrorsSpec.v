(** Independent description of error chains. *)
From Coq Require Import String List.
From Verif Require Import ErrorsModel.
Import ListNotations.
Local Open Scope string_scope.

(** The errors from the outermost to the innermost. *)
Fixpoint chain (e : err) : list err :=
  e :: match e with Err _ _ (Some n) _ => chain n | Err _ _ None _ => [] end.

(** What one element contributes. *)
Definition element (e : err) : string := e_context e ++ " " ++ ec_text (e_ec e).

Definition describe (e : err) : string := String.concat " <- " (map element (chain e)).

(** The error nested [n] levels around [e]. *)
Inductive wraps : err -> err -> Prop :=
| wraps_here e : wraps e e
| wraps_more c ec r o e : wraps o e -> wraps (Err c ec (Some o) r) e.
