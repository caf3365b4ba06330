(** Interleaving models of the inbound protocols of the asio and ev backends.

    Code: src/rotor/asio/supervisor_asio.cpp 37 (start), 51-61 (a fired timer),
    81-91 (enqueue), 105-133 (do_process); include/rotor/asio/forwarder.hpp
    (a forwarded callback: handler, then do_process);
    src/rotor/ev/supervisor_ev.cpp 32-37 (async_cb), 39-57 (timer_cb), 64-68
    (do_initialize), 70-75 (enqueue), 77 (start), 79-83 (shutdown_finish),
    118-141 (on_async), 149-157 (move_inbound_queue).

    All supervisors of a locality share the queue and the inbound queue of the
    leader (supervisor_asio.cpp:82-83, supervisor_ev.cpp:71-72).  Both backends run
    the same routine: move the inbound messages to the queue, dispatch the queue,
    and, if messages went to other localities, poll for a while.

    Every step is one atomic access to shared data; the list of operations is the
    schedule; a step which is not enabled leaves the state unchanged.

    Simplifications: [boost::lockfree::queue] is a linearizable FIFO queue whose
    [push] always succeeds; a strand runs the tasks deferred to it one after another,
    each once, in order; the event loop libev calls the callback of an active async
    watcher some time after ev_async_send, once for any number of sends, and never for
    a stopped one (ev(3)); a handler is represented by the messages it sends inside
    the locality. *)
From stdpp Require Import base list gmap.
From Verif Require Import Base.
Open Scope N_scope.

(** A message of another thread, or one sent inside the locality. *)
Inductive item := Ext (m : N) | Loc (m : N).
Global Instance item_eq_dec : EqDecision item.
Proof. solve_decision. Defined.
Inductive wev := Dispatched (x : item).

(** ** The common routine, supervisor_asio.cpp:105-133 and supervisor_ev.cpp:118-141 *)
Inductive pc :=
| PMove                 (* asio 114-116, ev 119: popping the inbound queue *)
| PProc (last : bool)   (* supervisor_t::do_process: asio 118 or 130, ev 124 or 138 *)
| PPoll                 (* asio 124, ev 131: the condition of the loop *)
| PPollPop.             (* asio 125-127, ev 132 *)
Global Instance pc_eq_dec : EqDecision pc.
Proof. solve_decision. Defined.

Record core := Core {
  c_inb : list N;          (* inbound_queue of the leader *)
  c_queue : list item;     (* queue of the leader *)
  c_run : option pc        (* the running callback *)
}.
Definition with_run (k : core) (p : option pc) : core := Core (c_inb k) (c_queue k) p.
Definition with_queue (k : core) (q : list item) : core := Core (c_inb k) q (c_run k).
Definition pop_to_queue (k : core) (m : N) (rest : list N) : core := Core rest (c_queue k ++ [Ext m]) (c_run k).

(** One step.  The choice stands for: messages went to other localities and polling
    is configured ([PProc false]); the deadline is not reached ([PPoll]). *)
Definition core_step (k : core) (choice : bool) : core * list wev :=
  match c_run k with
  | None => (k, [])
  | Some PMove =>
      match c_inb k with
      | m :: rest => (pop_to_queue k m rest, [])
      | [] => (with_run k (if bool_decide (c_queue k = []) then None else Some (PProc false)), [])
      end
  | Some (PProc last) =>
      match c_queue k with
      | x :: rest => (with_queue k rest, [Dispatched x])
      | [] => (with_run k (if choice && negb last then Some PPoll else None), [])
      end
  | Some PPoll =>
      if choice && bool_decide (c_queue k = []) then (with_run k (Some PPollPop), [])
      else (with_run k (if bool_decide (c_queue k = []) then None else Some (PProc true)), [])
  | Some PPollPop =>
      match c_inb k with
      | m :: rest => (pop_to_queue k m rest, [])
      | [] => (with_run k (Some PPoll), [])
      end
  end.
(** A handler, which [do_process] is running, sends inside the locality. *)
Definition core_local (k : core) (m : N) : core :=
  match c_run k with Some (PProc _) => with_queue k (c_queue k ++ [Loc m]) | _ => k end.
Definition core_push (k : core) (m : N) : core := Core (c_inb k ++ [m]) (c_queue k) (c_run k).

(** ** asio *)
(** What is deferred to the strand: do_process (enqueue and start); a timer or
    forwarded callback, which sends some messages and then calls do_process. *)
Inductive task := TProcess | TUser (ms : list N).
Record gstate := GState {
  g_core : core;
  g_mid : gset N;       (* threads inside enqueue, after the push *)
  g_tasks : list task   (* the strand *)
}.
Definition ginit : gstate := GState (Core [] [] None) ∅ [].
Inductive gop :=
| GPush (t m : N)       (* supervisor_asio.cpp:84 *)
| GDefer (t : N)        (* supervisor_asio.cpp:86-90 *)
| GPost (k : task)      (* start(); a timer expired; a forwarder was called *)
| GStart                (* the strand runs the next task *)
| GStep (choice : bool)
| GLocal (m : N).

Definition gstep (s : gstate) (o : gop) : res (gstate * list wev) :=
  match o with
  | GPush t m =>
      if bool_decide (t ∈ g_mid s) then Ok (s, [])
      else Ok (GState (core_push (g_core s) m) ({[t]} ∪ g_mid s) (g_tasks s), [])
  | GDefer t =>
      if bool_decide (t ∈ g_mid s) then Ok (GState (g_core s) (g_mid s ∖ {[t]}) (g_tasks s ++ [TProcess]), []) else Ok (s, [])
  | GPost k => Ok (GState (g_core s) (g_mid s) (g_tasks s ++ [k]), [])
  | GStart =>
      match c_run (g_core s), g_tasks s with
      | None, k :: rest =>
          let ms := match k with TProcess => [] | TUser ms => ms end in
          Ok (GState (Core (c_inb (g_core s)) (c_queue (g_core s) ++ (Loc <$> ms)) (Some PMove)) (g_mid s) rest, [])
      | _, _ => Ok (s, [])
      end
  | GStep b => let '(k, e) := core_step (g_core s) b in Ok (GState k (g_mid s) (g_tasks s), e)
  | GLocal m => Ok (GState (core_local (g_core s) m) (g_mid s) (g_tasks s), [])
  end.

(** ** ev *)
Record vstate := VState {
  v_core : core;
  v_mid : gmap N N;       (* threads inside enqueue of which supervisor, after the push *)
  v_sent : gset N;        (* supervisors whose async_watcher was sent to, and not yet called *)
  v_active : gset N       (* supervisors whose async_watcher is started *)
}.
Definition vinit : vstate := VState (Core [] [] None) ∅ ∅ ∅.
Inductive vop :=
| VInit (c : N)              (* do_initialize of a supervisor, :64-68; by the user, or in a handler *)
| VPush (t c m : N)          (* enqueue, :73 *)
| VSend (t : N)              (* enqueue, :74 *)
| VStart (c : N)             (* start(), :77 *)
| VWake (c : N)              (* libev calls async_cb *)
| VTimer (ms : list N)       (* libev calls timer_cb: the callback of the timer sends, then do_process, :39-57 *)
| VStep (choice : bool)
| VLocal (m : N)
| VStop (c : N).             (* shutdown_finish of a supervisor, in a handler, :79-83: the pops are one step *)

Definition busy (k : core) : bool := match c_run k with Some (PProc _) => true | _ => false end.
Definition vstep (s : vstate) (o : vop) : res (vstate * list wev) :=
  match o with
  | VInit c => Ok (VState (v_core s) (v_mid s) (v_sent s) ({[c]} ∪ v_active s), [])
  | VPush t c m =>
      match v_mid s !! t with
      | Some _ => Ok (s, [])
      | None => Ok (VState (core_push (v_core s) m) (<[t := c]> (v_mid s)) (v_sent s) (v_active s), [])
      end
  | VSend t =>
      match v_mid s !! t with
      | Some c => Ok (VState (v_core s) (delete t (v_mid s)) ({[c]} ∪ v_sent s) (v_active s), [])
      | None => Ok (s, [])
      end
  | VStart c => Ok (VState (v_core s) (v_mid s) ({[c]} ∪ v_sent s) (v_active s), [])
  | VWake c =>
      if bool_decide (c_run (v_core s) = None /\ c ∈ v_sent s /\ c ∈ v_active s)
      then Ok (VState (with_run (v_core s) (Some PMove)) (v_mid s) (v_sent s ∖ {[c]}) (v_active s), []) else Ok (s, [])
  | VTimer ms =>
      if bool_decide (c_run (v_core s) = None)
      then Ok (VState (Core (c_inb (v_core s)) (c_queue (v_core s) ++ (Loc <$> ms)) (Some (PProc true))) (v_mid s) (v_sent s) (v_active s), [])
      else Ok (s, [])
  | VStep b => let '(k, e) := core_step (v_core s) b in Ok (VState k (v_mid s) (v_sent s) (v_active s), e)
  | VLocal m => Ok (VState (core_local (v_core s) m) (v_mid s) (v_sent s) (v_active s), [])
  | VStop c =>
      if busy (v_core s) then
        Ok (VState (Core [] (c_queue (v_core s) ++ (Ext <$> c_inb (v_core s))) (c_run (v_core s))) (v_mid s) (v_sent s) (v_active s ∖ {[c]}), [])
      else Ok (s, [])
  end.
