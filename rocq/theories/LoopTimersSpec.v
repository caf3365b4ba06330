(** Vocabulary of C49-C51. *)
From stdpp Require Import base list gmap.
From Verif Require Import Base LoopTimersModel.
Open Scope N_scope.

(** Number of callbacks of a timer. *)
Definition calls (id : N) (e : levent) : nat :=
  match e with Fired i | Cancelled i => if decide (i = id) then 1%nat else 0%nat | _ => 0%nat end.
Fixpoint callbacks (id : N) (ev : list levent) : nat :=
  match ev with [] => 0%nat | e :: ev' => (calls id e + callbacks id ev')%nat end.

Definition frame_id (f : frame) : option N := match f with FFire id | FCancel id => Some id | FProc _ => None end.
(** The callbacks being run. *)
Definition running (s : lstate) : list N := omap frame_id (l_stack s).

(** The rule of use (as for the thread backend, C14): a timer is not cancelled inside its
    own callback; do_cancel_timer gets a timer which is known. *)
Definition disciplined (s : lstate) (o : lop) : Prop :=
  match o with
  | LCancel id => id ∈ l_act s /\ id ∉ running s
  | LDoCancel id => id ∈ l_sup s /\ id ∉ running s
  | _ => True
  end.
(** Code which sends or cancels runs in a callback or a message handler. *)
Definition inside (s : lstate) (o : lop) : Prop :=
  match o with LSend _ | LCancel _ | LDoCancel _ => l_stack s <> [] | _ => True end.
Global Instance disciplined_dec s o : Decision (disciplined s o).
Proof. destruct o; cbn; apply _. Defined.
Global Instance inside_dec s o : Decision (inside s o).
Proof. destruct o; cbn; apply _. Defined.

(** What the loop does when the callbacks and handlers do nothing. *)
Definition loop_op (o : lop) : Prop :=
  match o with LExpire _ | LStrand | LReturn | LDispatch => True | _ => False end.

Definition own_frames (s : lstate) : nat := length (filter (fun f => f = FProc true) (l_stack s)).
Definition sent (ev : list levent) : list N := omap (fun e => match e with Sent m => Some m | _ => None end) ev.
Definition handled (ev : list levent) : list N := omap (fun e => match e with Handled m => Some m | _ => None end) ev.
