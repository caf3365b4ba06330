(** Model of the timers of the std::thread backend:
    src/rotor/thread/system_context_thread.cpp, the timer part of
    src/rotor/actor_base.cpp and src/rotor/thread/supervisor_thread.cpp.

    Callbacks are user code: while a callback runs it may start and cancel
    timers, which may run further callbacks.  This is modelled with an explicit
    stack of running callbacks; the operation [OpReturn] lets the innermost
    callback return.  All callback behaviours are therefore covered by
    quantifying over operation lists.

    Simplifications: time unit is one tick ([Z]), intervals are non-negative,
    timer ids are allocated from an unbounded counter (wrap-around is treated in
    the request model), the [timers_map]s of all actors of the context are
    merged into one set (ids are unique in the context), and the rehashing of
    that hash map while a callback runs is ignored. *)
From stdpp Require Import base list gmap.
From Verif Require Import Base.

(** [deadline_info_t], include/rotor/thread/system_context_thread.h:57-63. *)
Notation node := (N * Z)%type.

(** What [update_time] was called for: the event loop, or (while an I/O handler
    is intercepted) the beginning of start_timer / cancel_timer. *)
Inductive kont := KNone | KStart (id : N) (interval : N) | KCancel (id : N).

(** A running callback, started by the loop in update_time (:97-101) or by
    cancel_timer (:124). *)
Inductive frame := FUpd (id : N) (k : kont) | FCancel (id : N).

Record tstate := TState {
  t_clock : Z;             (* clock_t::now() *)
  t_now : Z;               (* system_context_thread_t::now *)
  t_icpt : bool;           (* intercepting *)
  t_nodes : list node;     (* timer_nodes *)
  t_map : gset N;          (* timers_map keys *)
  t_stack : list frame;    (* running callbacks, innermost first *)
  t_next : N               (* next timer id *)
}.

Inductive tevent :=
| Started (id : N) (now : Z) (interval : N)
| Fired (id : N) (now : Z)      (* callback with cancelled = false *)
| Cancelled (id : N).           (* callback with cancelled = true *)

Inductive top :=
| OpClock (dt : N)      (* time passes *)
| OpUpdate              (* the event loop calls update_time, :77, :91 *)
| OpStart (interval : N)
| OpCancel (id : N)
| OpReturn              (* the innermost callback returns *)
| OpIntercept (b : bool). (* supervisor_thread.cpp:36,39 *)

Definition tinit : tstate := TState 0 0 false [] ∅ [] 1.

(** system_context_thread.cpp:108-114: insert before the first node with a
    strictly later deadline. *)
Fixpoint insert_node (n : node) (l : list node) : list node :=
  match l with
  | [] => [n]
  | m :: l' => if bool_decide (n.2 < m.2)%Z then n :: m :: l' else m :: insert_node n l'
  end.

(** [timer_nodes.erase(it)] for the node of a timer id. *)
Fixpoint erase_node (id : N) (l : list node) : list node :=
  match l with
  | [] => []
  | m :: l' => if bool_decide (m.1 = id) then l' else m :: erase_node id l'
  end.

Fixpoint has_node (id : N) (l : list node) : bool :=
  match l with
  | [] => false
  | m :: l' => bool_decide (m.1 = id) || has_node id l'
  end.

(** Split at the node of [id]: the nodes before it and the nodes after it. *)
Fixpoint split_node (id : N) (l : list node) : option (list node * list node) :=
  match l with
  | [] => None
  | m :: l' => if bool_decide (m.1 = id) then Some ([], l')
               else match split_node id l' with
                    | None => None
                    | Some (a, b) => Some (m :: a, b)
                    end
  end.

(** The while loop of update_time, :97-101, from iterator position [suf]: nodes
    whose timer is unknown to the owner (on_timer_trigger does nothing,
    actor_base.cpp:263-264) are erased; the first expired known one is the next
    callback to run. *)
Fixpoint upd_loop (now : Z) (map : gset N) (pre suf : list node) : list node * option N :=
  match suf with
  | [] => (pre, None)
  | n :: suf' =>
      if bool_decide (n.2 < now)%Z then
        if bool_decide (n.1 ∈ map) then (pre ++ n :: suf', Some n.1)
        else upd_loop now map pre suf'
      else (pre ++ n :: suf', None)
  end.

Definition set_nodes (s : tstate) (l : list node) : tstate :=
  TState (t_clock s) (t_now s) (t_icpt s) l (t_map s) (t_stack s) (t_next s).
Definition set_map (s : tstate) (m : gset N) : tstate :=
  TState (t_clock s) (t_now s) (t_icpt s) (t_nodes s) m (t_stack s) (t_next s).
Definition set_stack (s : tstate) (k : list frame) : tstate :=
  TState (t_clock s) (t_now s) (t_icpt s) (t_nodes s) (t_map s) k (t_next s).
Definition set_now (s : tstate) (t : Z) : tstate :=
  TState (t_clock s) t (t_icpt s) (t_nodes s) (t_map s) (t_stack s) (t_next s).

(** system_context_thread.cpp:107-114 then actor_base_t::start_timer emplaces
    the handler, include/rotor/supervisor.h:378-385. *)
Definition do_start (s : tstate) (id : N) (interval : N) : res (tstate * list tevent) :=
  let s1 := set_nodes s (insert_node (id, (t_now s + Z.of_N interval)%Z) (t_nodes s)) in
  Ok (set_map s1 ({[id]} ∪ t_map s1), [Started id (t_now s) interval]).

(** system_context_thread.cpp:120-125; on_timer_trigger(id, true) runs the
    callback if the owner knows the timer (actor_base.cpp:262-268). *)
Definition do_cancel (s : tstate) (id : N) : res (tstate * list tevent) :=
  if has_node id (t_nodes s) then
    if bool_decide (id ∈ t_map s) then
      Ok (set_stack s (FCancel id :: t_stack s), [Cancelled id])
    else Ok (set_nodes s (erase_node id (t_nodes s)), [])
  else AssertFail.

Definition run_kont (s : tstate) (k : kont) : res (tstate * list tevent) :=
  match k with
  | KNone => Ok (s, [])
  | KStart id interval => do_start s id interval
  | KCancel id => do_cancel s id
  end.

(** system_context_thread.cpp:96-102 continued at position [suf]. *)
Definition continue_update (s : tstate) (pre suf : list node) (k : kont) : res (tstate * list tevent) :=
  match upd_loop (t_now s) (t_map s) pre suf with
  | (nodes, Some id) =>
      Ok (set_stack (set_nodes s nodes) (FUpd id k :: t_stack s), [Fired id (t_now s)])
  | (nodes, None) => run_kont (set_nodes s nodes) k
  end.

(** system_context_thread.cpp:94-102 *)
Definition update_time (s : tstate) (k : kont) : res (tstate * list tevent) :=
  continue_update (set_now s (t_clock s)) [] (t_nodes s) k.

Definition bump (s : tstate) : tstate :=
  TState (t_clock s) (t_now s) (t_icpt s) (t_nodes s) (t_map s) (t_stack s) (N.succ (t_next s)).

Definition tstep (s : tstate) (o : top) : res (tstate * list tevent) :=
  match o with
  | OpClock dt =>
      Ok (TState (t_clock s + Z.of_N dt)%Z (t_now s) (t_icpt s) (t_nodes s) (t_map s) (t_stack s) (t_next s), [])
  | OpIntercept b =>
      (* messages are dispatched by the loop, not inside a timer callback *)
      match t_stack s with
      | [] => Ok (TState (t_clock s) (t_now s) b (t_nodes s) (t_map s) (t_stack s) (t_next s), [])
      | _ => Ok (s, [])
      end
  | OpUpdate =>
      match t_stack s with
      | [] => update_time s KNone
      | _ => Ok (s, [])
      end
  | OpStart interval =>
      (* :105-106 *)
      let id := t_next s in
      if t_icpt s then update_time (bump s) (KStart id interval)
      else do_start (bump s) id interval
  | OpCancel id =>
      (* actor_base.cpp:257-260, system_context_thread.cpp:117-119 *)
      if bool_decide (id ∈ t_map s) then
        if t_icpt s then update_time s (KCancel id) else do_cancel s id
      else AssertFail
  | OpReturn =>
      match t_stack s with
      | [] => Ok (s, [])
      | FUpd id k :: st =>
          (* actor_base.cpp:266 erases the handler through an iterator; then
             system_context_thread.cpp:100 erases the node and goes on. *)
          if bool_decide (id ∈ t_map s) then
            match split_node id (t_nodes s) with
            | None => Crash
            | Some (pre, suf) =>
                continue_update (set_stack (set_map s (t_map s ∖ {[id]})) st) pre suf k
            end
          else Crash
      | FCancel id :: st =>
          (* actor_base.cpp:266, system_context_thread.cpp:125 *)
          if bool_decide (id ∈ t_map s) then
            if has_node id (t_nodes s) then
              Ok (set_nodes (set_stack (set_map s (t_map s ∖ {[id]})) st) (erase_node id (t_nodes s)), [])
            else Crash
          else Crash
      end
  end.
