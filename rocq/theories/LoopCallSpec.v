(** Vocabulary of C66. *)
From stdpp Require Import base list.
From Verif Require Import Base LoopCallModel.

(** [S] is used after the pointer which came with the callback was given back. *)
Fixpoint bare (h : bool) (r : list instr) : bool :=
  match r with
  | [] => false
  | (IAccess | IProcess) :: r => negb h || bare h r
  | IGive :: r => bare false r
  | IYield :: r => bare h r
  end.
(** Nothing of the kind after do_process. *)
Fixpoint tidy_end (h : bool) (r : list instr) : bool :=
  match r with
  | [] => true
  | IProcess :: r => negb (bare h r) && tidy_end h r
  | IGive :: r => tidy_end false r
  | _ :: r => tidy_end h r
  end.
(** When a callback keeps to what its situation demands. *)
Definition sound (c : call) (k : kind) : bool :=
  match k with
  | KHeld | KTurn => true
  | KSame => tidy_end (holds c) (prog c)
  | KThread => negb (bare (holds c) (prog c))
  end.
(** Which situations there are: only asio makes a locality for each strand, and the
    last two callbacks are made for a root only. *)
Definition possible (c : call) (k : kind) : bool :=
  match c, k with
  | (FltkWake | ThreadRun), KHeld => true
  | (FltkWake | ThreadRun), _ => false
  | (AsioEnqueue | AsioTimer | AsioForwardSelf | AsioForward), _ => true
  | _, (KHeld | KSame) => true
  | _, _ => false
  end.

(** Rules of use.  An actor which has an asynchronous operation under way holds a resource
    (C29), so it does not finish its shutdown, and neither does its supervisor. *)
Definition resourceful (s : lstate) (o : lop) : Prop :=
  match o with LHandle true => Forall (fun w => w_call w <> AsioForward) (l_wait s) | _ => True end.
Definition careful (k : kind) (s : lstate) (o : lop) : Prop :=
  resourceful s o /\ match o with LCall c => sound c k = true /\ possible c k = true | _ => True end.
Global Instance careful_dec k s o : Decision (careful k s o).
Proof. unfold careful, resourceful. destruct o; try destruct ends; apply _. Defined.
