(** What a delivery should do. *)
From stdpp Require Import base list gmap.
From Verif Require Import Base DispatchModel.
Open Scope N_scope.

(** The rule for handlers: while a handler which is not the last one of the message
    runs, no subscription of an actor of this locality for the same address and
    message type is made or forgotten.  What is forgotten is subscribed. *)
Definition inner (s : dstate) (k : N) : list N :=
  match d_mine s !! k with Some j => match d_heap s !! j_buf j with Some buf => b_elems buf | None => [] end | None => [] end.
Definition outer (s : dstate) (k : N) : list N := match d_mine s !! k with Some j => j_ext j | None => [] end.
Definition busy (s : dstate) (k : N) : Prop :=
  match d_loop s with Some l => l_key l = k /\ (l_next l < l_end l)%nat | None => False end.
Definition calm (s : dstate) (o : dop) : Prop :=
  match o with
  | DSub k internal => internal = true -> ~ busy s k
  | DForget k internal h => (internal = true -> ~ busy s k) /\ h ∈ (if internal then inner s k else outer s k)
  | _ => True
  end.

(** The subscribers by the history alone: (key, internal, handler). *)
Definition sub_step (l : list (N * bool * N)) (e : devent) : list (N * bool * N) :=
  match e with
  | ESubscribed k i h => l ++ [(k, i, h)]
  | EForgot k h => List.filter (fun x => negb (x.2 =? h)) l
  | _ => l
  end.
Definition subscribers (ev : list devent) : list (N * bool * N) := foldl sub_step [] ev.
Definition of_key (k : N) (i : bool) (l : list (N * bool * N)) : list N :=
  omap (fun x => if (x.1.1 =? k) && Bool.eqb x.1.2 i then Some x.2 else None) l.

(** The calls after the last start of a delivery. *)
Fixpoint since_start (ev acc : list devent) : list devent :=
  match ev with
  | [] => acc
  | EStart k :: ev' => since_start ev' []
  | e :: ev' => since_start ev' (acc ++ [e])
  end.
Definition calls (ev : list devent) : list N := omap (fun e => match e with ECall h => Some h | _ => None end) ev.
Definition forwards (ev : list devent) : list N := omap (fun e => match e with EForward h => Some h | _ => None end) ev.
