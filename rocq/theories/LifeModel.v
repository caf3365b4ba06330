(** Model of the life cycle of one actor with an arbitrary list of plugins.

    Code: src/rotor/actor_base.cpp 35-274 (init_start, init_continue, init_finish,
    on_start, shutdown_start, shutdown_continue, shutdown_finish,
    commit_plugin_deactivation, assign_shutdown_reason),
    src/rotor/plugin/init_shutdown.cpp 45-64 (on_init, on_shutdown),
    src/rotor/plugin/starter.cpp 67-86 (handle_start, on_start),
    src/rotor/plugin/address_maker.cpp 34-49, src/rotor/plugin/child_manager.cpp
    384-400 (start of shutdown of a root supervisor),
    include/rotor/plugin/plugin_base.h (reactions).

    The plugins are numbered 0 .. n-1 in declaration order; what a plugin does
    inside handle_init, handle_shutdown or handle_start is left open.  The two
    polling loops are therefore modelled with an explicit stack: an entry of
    [l_stack] is a loop waiting for the answer of the plugin it asks, and while it
    waits the plugin code may change reactions, answer the init request with an
    error, or call init_continue / shutdown_continue again (nested loops, as
    child_manager.cpp:495-508 does when a timer is cancelled by handle_shutdown).

    Simplifications:
    - messages are delivered when no loop is open (the queue is processed by one
      non-reentrant loop, C01);
    - the loops are numbered ([l_fid], ghost) to tell them apart in the trace;
    - cancelling timers and requests in shutdown_finish is covered by C10;
    - subscriptions are left out: plugin activation and deactivation appear only
      through reactions and the set [l_deact]. *)
From stdpp Require Import base list gmap.
From Coq Require Import String.
From Verif Require Import Base ErrorsModel.
From Verif Require Export StateModel.
Open Scope N_scope.

(** The three polls: handle_init, handle_shutdown, handle_start. *)
Inductive kind := KInit | KShut | KStart.
Global Instance kind_eq_dec : EqDecision kind.
Proof. solve_decision. Defined.

(** A loop number [f_id] which asks plugin [f_at]. *)
Record frame := Frame { f_kind : kind; f_id : N; f_at : nat }.

Record lstate := LState {
  l_state : astate;
  l_ireq : option N;            (* init_request *)
  l_sreq : option N;            (* shutdown_request *)
  l_want : kind -> gset nat;    (* plugins with that reaction on *)
  l_prog : kind -> bool;        (* PROGRESS_INIT, PROGRESS_SHUTDOWN of continuation_mask *)
  l_reason : option err;        (* shutdown_reason *)
  l_deact : gset nat;           (* deactivating_plugins *)
  l_stack : list frame;
  l_fid : N
}.

Inductive levent :=
| EReact (k : kind) (p : nat) (on : bool)
| ELoop (k : kind) (f : N)                  (* a polling loop begins *)
| ESkip (k : kind) (f : N) (p : nat)        (* it passes a plugin without the reaction *)
| EAsk (k : kind) (f : N) (p : nat)         (* it asks a plugin *)
| EVote (k : kind) (f : N) (p : nat) (b : bool)
| EState (o n : astate)                     (* an assignment to state *)
| EInitMsg (r : N) | EShutMsg (r : N)       (* requests received *)
| EInitOk (f r : N)                         (* init request r is answered positively *)
| EInitErr (r : N)
| EShutOk (f r : N)                         (* shutdown request r is answered *)
| EFinish (k : kind) (f : N)                (* init_finish, shutdown_finish *)
| EAssign (r : err)                         (* the shutdown reason is set *)
| EEscalate (r : err)                       (* shutdown_trigger for the supervisor: escalate_failure *)
| EAutoDown (r : err).                      (* shutdown_trigger for the supervisor: autoshutdown_supervisor *)

Inductive lop :=
| OInitialize                               (* do_initialize *)
| OReact (k : kind) (p : nat) (on : bool)   (* reaction_on / reaction_off by plugin code *)
| OInitMsg (r : N)                          (* init request r is delivered *)
| OInitFail                                 (* a plugin answers the init request with an error *)
| OContinue (k : kind)                      (* plugin code calls init_continue or shutdown_continue *)
| OVote (b : bool)                          (* the asked plugin answers *)
| OShutMsg (r : N) (reason : option err)    (* shutdown request r is delivered *)
| OShutSelf (reason : option err)           (* a root supervisor starts its shutdown *)
| OStartMsg                                 (* start trigger *)
| ODeact (p : nat) (on : bool).             (* deactivating_plugins insert / commit_plugin_deactivation *)

Section model.
(** Number of plugins, which of them is the starter, settings of the actor. *)
Context (n starter : nat) (spawned escalate auto : bool) (ident : string).

Definition set_state s x := LState x (l_ireq s) (l_sreq s) (l_want s) (l_prog s) (l_reason s) (l_deact s) (l_stack s) (l_fid s).
Definition set_ireq s x := LState (l_state s) x (l_sreq s) (l_want s) (l_prog s) (l_reason s) (l_deact s) (l_stack s) (l_fid s).
Definition set_sreq s x := LState (l_state s) (l_ireq s) x (l_want s) (l_prog s) (l_reason s) (l_deact s) (l_stack s) (l_fid s).
Definition set_want s x := LState (l_state s) (l_ireq s) (l_sreq s) x (l_prog s) (l_reason s) (l_deact s) (l_stack s) (l_fid s).
Definition set_prog s x := LState (l_state s) (l_ireq s) (l_sreq s) (l_want s) x (l_reason s) (l_deact s) (l_stack s) (l_fid s).
Definition set_reason s x := LState (l_state s) (l_ireq s) (l_sreq s) (l_want s) (l_prog s) x (l_deact s) (l_stack s) (l_fid s).
Definition set_deact s x := LState (l_state s) (l_ireq s) (l_sreq s) (l_want s) (l_prog s) (l_reason s) x (l_stack s) (l_fid s).
Definition set_stack s x := LState (l_state s) (l_ireq s) (l_sreq s) (l_want s) (l_prog s) (l_reason s) (l_deact s) x (l_fid s).
Definition set_fid s x := LState (l_state s) (l_ireq s) (l_sreq s) (l_want s) (l_prog s) (l_reason s) (l_deact s) (l_stack s) x.

Definition upd {A} (f : kind -> A) (k : kind) (x : A) : kind -> A := fun k' => if decide (k' = k) then x else f k'.
(** plugin_base.h: reaction_on, reaction_off *)
Definition react (s : lstate) (k : kind) (p : nat) (on : bool) : lstate :=
  set_want s (upd (l_want s) k (if on then l_want s k ∪ {[p]} else l_want s k ∖ {[p]})).

(** The plugins a loop still has to look at, in its order. *)
Definition todo_from_start (k : kind) : list nat := match k with KInit => seq 0 n | _ => rev (seq 0 n) end.
Definition todo_after (k : kind) (p : nat) : list nat := match k with KInit => seq (S p) (n - S p) | _ => rev (seq 0 p) end.

(** Passes the plugins without the reaction, stops at the first one with it. *)
Fixpoint scan (want : gset nat) (l : list nat) : list nat * option nat :=
  match l with
  | [] => ([], None)
  | p :: r => if decide (p ∈ want) then ([], Some p) else let '(sk, q) := scan want r in (p :: sk, q)
  end.

(** actor_base.cpp:97-101 *)
Definition init_finish (s : lstate) (f : N) : res (lstate * list levent) :=
  match l_ireq s with
  | None => Crash
  | Some r => Ok (set_state (set_ireq s None) AInitialized, [EInitOk f r; EState (l_state s) AInitialized])
  end.
(** actor_base.cpp:121-145 *)
Definition shutdown_finish (s : lstate) (f : N) : res (lstate * list levent) :=
  let e := match l_sreq s with Some r => [EShutOk f r] | None => [] end in
  if bool_decide (l_deact s = ∅) then Ok (set_state (set_sreq s None) AShutDown, e ++ [EState (l_state s) AShutDown])
  else AssertFail.

(** What follows after the end of a loop: actor_base.cpp:163-168, 188-192 *)
Definition finish (s : lstate) (k : kind) (f : N) : res (lstate * list levent) :=
  match k with
  | KInit => init_finish s f
  | KShut => shutdown_finish s f
  | KStart => Ok (s, [])
  end.

(** One loop continues with the plugins [l]: actor_base.cpp:153-167, 177-192,
    starter.cpp:79-85.  The starter's handle_start calls on_start
    (actor_base.cpp:103). *)
Definition loop (s : lstate) (k : kind) (f : N) (l : list nat) : res (lstate * list levent) :=
  let '(sk, q) := scan (l_want s k) l in
  let e := ESkip k f <$> sk in
  match q with
  | Some p =>
      let s1 := set_stack s (Frame k f p :: l_stack s) in
      if decide (k = KStart /\ p = starter) then
        Ok (set_state s1 AOperational, e ++ [EAsk k f p; EState (l_state s) AOperational])
      else Ok (s1, e ++ [EAsk k f p])
  | None =>
      rbind (finish (set_prog s (upd (l_prog s) k false)) k f) (fun '(s1, e1) => Ok (s1, e ++ EFinish k f :: e1))
  end.

Definition begin (s : lstate) (k : kind) : res (lstate * list levent) :=
  let f := l_fid s in
  let s1 := set_prog (set_fid s (f + 1)) (upd (l_prog s) k true) in
  rbind (loop s1 k f (todo_from_start k)) (fun '(s2, e2) => Ok (s2, ELoop k f :: e2)).

(** actor_base.cpp:147-168 *)
Definition init_continue (s : lstate) : res (lstate * list levent) :=
  if bool_decide (l_state s = AInitializing) && bool_decide (is_Some (l_ireq s)) then begin s KInit else AssertFail.
(** actor_base.cpp:172-193 *)
Definition shutdown_continue (s : lstate) : res (lstate * list levent) :=
  if bool_decide (l_state s = AShuttingDown) then begin s KShut else AssertFail.

(** The asked plugin answers; handle_start has no answer. *)
Definition vote (s : lstate) (b : bool) : res (lstate * list levent) :=
  match l_stack s with
  | [] => Ok (s, [])
  | Frame k f p :: rest =>
      let s1 := set_stack s rest in
      let b' := b || bool_decide (k = KStart) in
      let v := EVote k f p b' in
      if b' then
        rbind (loop (react s1 k p false) k f (todo_after k p)) (fun '(s2, e2) => Ok (s2, v :: EReact k p false :: e2))
      else Ok (set_prog s1 (upd (l_prog s1) k false), [v])
  end.

(** actor_base.cpp:270-274 *)
Definition assign_reason (s : lstate) (r : option err) : lstate * list levent :=
  match l_reason s, r with
  | None, Some e => (set_reason s (Some e), [EAssign e])
  | _, _ => (s, [])
  end.

(** actor_base.cpp:105-119 *)
Definition shutdown_start (s : lstate) : lstate * list levent :=
  let e1 :=
    if spawned then []
    else
      (match l_reason s with
       | Some r => if escalate && ec_true (e_ec (root r))
                   then [EEscalate (make_error ident (mk_error failure_escalation) (Some r) None)] else []
       | None => []
       end) ++
      (if auto then [EAutoDown (make_error ident (mk_shutdown child_down) (l_reason s) None)] else []) in
  (set_state s AShuttingDown, EState (l_state s) AShuttingDown :: e1).

Definition idle (s : lstate) : bool := match l_stack s with [] => true | _ => false end.

Definition lstep (s : lstate) (o : lop) : res (lstate * list levent) :=
  match o with
  | OInitialize =>
      (* called once, by create_actor or by the system context *)
      if bool_decide (l_state s = ANew) then Ok (set_state s AInitializing, [EState ANew AInitializing]) else Ok (s, [])
  | OReact k p on => Ok (react s k p on, [EReact k p on])
  | OInitMsg r =>
      (* init_shutdown.cpp:45-52 *)
      if idle s then
        let s1 := set_ireq s (Some r) in
        if bool_decide (l_state s = AInitializing)
        then rbind (init_continue s1) (fun '(s2, e2) => Ok (s2, EInitMsg r :: e2)) else Ok (s1, [EInitMsg r])
      else Ok (s, [])
  | OInitFail =>
      match l_ireq s with Some r => Ok (set_ireq s None, [EInitErr r]) | None => Ok (s, []) end
  | OContinue KInit => init_continue s
  | OContinue KShut => shutdown_continue s
  | OContinue KStart => Ok (s, [])
  | OVote b => vote s b
  | OShutMsg r reason =>
      (* init_shutdown.cpp:54-64; its assertion is always true *)
      if idle s then
        let '(s1, e1) := assign_reason (set_sreq s (Some r)) reason in
        let '(s2, e2) := shutdown_start s1 in
        rbind (shutdown_continue s2) (fun '(s3, e3) => Ok (s3, EShutMsg r :: e1 ++ e2 ++ e3))
      else Ok (s, [])
  | OShutSelf reason =>
      (* child_manager.cpp:391-397, without the requests to the children; the
         following shutdown_continue is a separate operation *)
      if idle s then
        if bool_decide (l_state s = AShuttingDown) then Ok (s, [])
        else
          let '(s1, e1) := assign_reason s reason in
          let '(s2, e2) := shutdown_start s1 in Ok (s2, e1 ++ e2)
      else Ok (s, [])
  | OStartMsg =>
      (* starter.cpp:72-86 *)
      if idle s then if bool_decide (l_state s = AInitialized) then begin s KStart else Ok (s, []) else Ok (s, [])
  | ODeact p on => Ok (set_deact s (if on then l_deact s ∪ {[p]} else l_deact s ∖ {[p]}), [])
  end.

Definition linit : lstate := LState ANew None None (fun _ => ∅) (fun _ => false) None ∅ [] 0.
End model.
