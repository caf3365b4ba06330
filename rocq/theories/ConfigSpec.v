(** When a list of setter calls makes a good configuration. *)
From stdpp Require Import base list.
From Coq Require Import NArith.
From Verif Require Import Base ConfigModel.
Open Scope N_scope.

Definition gives_init (s : setter) : bool := match s with STimeout _ | SInit _ => true | _ => false end.
Definition gives_shutdown (s : setter) : bool := match s with STimeout _ | SShutdown _ => true | _ => false end.
Definition gives_2 (s : setter) : bool := match s with SField2 => true | _ => false end.
Definition gives_3 (s : setter) : bool := match s with SField3 => true | _ => false end.
Definition needs_2 (k : kind) : bool := match k with KAsio | KEv | KWx => true | _ => false end.
Definition needs_3 (k : kind) : bool := match k with KEv => true | _ => false end.

(** The value given last. *)
Fixpoint last_value {A} (f : setter -> option A) (l : list setter) : option A :=
  match l with
  | [] => None
  | s :: l' => match last_value f l' with Some v => Some v | None => f s end
  end.
Definition v_init (s : setter) := match s with STimeout t | SInit t => Some t | _ => None end.
Definition v_shutdown (s : setter) := match s with STimeout t | SShutdown t => Some t | _ => None end.
Definition v_registry (s : setter) := match s with SRegistry a => Some a | _ => None end.
Definition v_create (s : setter) := match s with SCreateRegistry v => Some v | _ => None end.

Definition external_registry (l : list setter) : bool :=
  match last_value v_registry l with Some (Some _) => true | _ => false end.
Definition wants_registry (l : list setter) : bool :=
  match last_value v_create l with Some v => v | None => false end.

Definition complete (k : kind) (l : list setter) : bool :=
  existsb gives_init l && existsb gives_shutdown l &&
  implb (needs_2 k) (existsb gives_2 l) && implb (needs_3 k) (existsb gives_3 l).
Definition well_configured (k : kind) (l : list setter) : bool :=
  complete k l && implb (is_sup k) (negb (external_registry l && wants_registry l)).

Definition installs (ev : list event) : nat := length (List.filter (fun e => match e with EInstalled _ => true | _ => false end) ev).
