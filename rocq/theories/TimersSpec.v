(** Vocabulary of the timer properties: only events and operations. *)
From stdpp Require Import base list gmap.
From Verif Require Import Base TimersModel.

(** Callbacks a timer got. *)
Definition is_callback (id : N) (e : tevent) : bool :=
  match e with
  | Fired i _ => bool_decide (i = id)
  | Cancelled i => bool_decide (i = id)
  | Started _ _ _ => false
  end.
Definition callbacks (id : N) (ev : list tevent) : nat := length (List.filter (is_callback id) ev).

Definition frame_id (f : frame) : N := match f with FUpd id _ => id | FCancel id => id end.

(** Discipline: a timer is cancelled only while it is known (rotor asserts this)
    and not from within its own callback; no I/O-intercepted handler. *)
Definition timer_discipline (s : tstate) (o : top) : Prop :=
  match o with
  | OpCancel id => id ∈ t_map s /\ id ∉ frame_id <$> t_stack s
  | OpIntercept b => b = false
  | _ => True
  end.

Definition timer_disciplineb (s : tstate) (o : top) : bool :=
  match o with
  | OpCancel id => bool_decide (id ∈ t_map s) && bool_decide (id ∉ frame_id <$> t_stack s)
  | OpIntercept b => negb b
  | _ => true
  end.
Lemma timer_disciplineb_sound s o : timer_disciplineb s o = true -> timer_discipline s o.
Proof.
  destruct o as [dt| |iv|id| |b]; simpl; try done.
  - intros H. apply andb_prop in H as [H1 H2].
    apply bool_decide_eq_true in H1. apply bool_decide_eq_true in H2. done.
  - by destruct b.
Qed.
