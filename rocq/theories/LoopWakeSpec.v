(** Vocabulary of C47 and C48. *)
From stdpp Require Import base list gmap.
From Verif Require Import Base LoopWakeModel.
Open Scope N_scope.

Definition ext_of (x : item) : option N := match x with Ext m => Some m | Loc _ => None end.
(** The messages of other threads among the dispatched, or queued. *)
Definition dispatched (e : list wev) : list N := omap (fun '(Dispatched x) => ext_of x) e.
Definition queued (q : list item) : list N := omap ext_of q.

(** The strand, or the loop, has nothing to do. *)
Definition gidle (s : gstate) : Prop := g_tasks s = [] /\ c_run (g_core s) = None.
Definition vidle (s : vstate) : Prop := v_sent s ∩ v_active s = ∅ /\ c_run (v_core s) = None.

(** The messages in the order of their [push] (a thread inside [enqueue] cannot start
    another one). *)
Fixpoint gpushed (s : gstate) (ops : list gop) : list N :=
  match ops with
  | [] => []
  | o :: rest =>
      let tl := match gstep s o with Ok (s', _) => gpushed s' rest | _ => [] end in
      match o with GPush t m => if bool_decide (t ∈ g_mid s) then tl else m :: tl | _ => tl end
  end.
Fixpoint vpushed (s : vstate) (ops : list vop) : list N :=
  match ops with
  | [] => []
  | o :: rest =>
      let tl := match vstep s o with Ok (s', _) => vpushed s' rest | _ => [] end in
      match o with VPush t c m => match v_mid s !! t with None => m :: tl | Some _ => tl end | _ => tl end
  end.

(** Steps of the strand, or the loop, alone. *)
Definition gown (o : gop) : Prop := o = GStart \/ o = GStep false.
Definition vown (o : vop) : Prop := o = VStep false \/ exists c, o = VWake c.

(** Messages are enqueued to supervisors whose watcher is active. *)
Definition to_active (s : vstate) (o : vop) : Prop := match o with VPush t c m => c ∈ v_active s | _ => True end.
Global Instance to_active_dec s o : Decision (to_active s o).
Proof. destruct o; cbn; apply _. Defined.
