(** Model of a supervisor together with its children: the messages of the child
    manager travel through queues and are delivered in the order of the queues.

    Code: everything cited in ChildMgrModel.v (the supervisor's side), and
    src/rotor/plugin/init_shutdown.cpp 45-73, src/rotor/actor_base.cpp 35-46
    (do_shutdown), 96-102 (init_finish), 105-119 (shutdown_start), 121-144
    (shutdown_finish) for a child; src/rotor/supervisor.cpp 53-67 (the root asks itself
    to initialize), 76-88, 121-138 (on_request_trigger: a timed out request is
    answered by a message put to the queue); include/rotor/supervisor.h 445-469
    (process: the queue is a FIFO, a message for another locality is handed to its
    supervisor), 593-612; src/rotor/plugin/lifetime.cpp 54-99 and
    src/rotor/plugin/plugin_base.cpp 36-52 (a handler is removed by a message sent
    after the deactivation, so it still sees what was queued before).

    The supervisor is 0, and its child manager is the model of ChildMgrModel.v: every
    operation on it is a [cstep].  The messages it sends are appended to the queue.

    - [f_q] is the queue of the locality of the supervisor.  A child of the same
      locality takes its messages from it and answers into it.
    - A foreign child (a supervisor with another loop) has [f_down c], the messages
      handed over to it and not yet processed, and [f_up c], the messages it sent which
      are not yet in [f_q].  Each of them keeps its order; different children are not
      ordered.

    Simplifications, besides those of ChildMgrModel.v:
    - a child is its state, its shutdown reason and whether it holds an init request; it
      may call do_shutdown at any time, answers its init request when it likes (a
      supervisor may answer with an error) and finishes its shutdown at any time after
      its handlers are gone;
    - removing the handlers of an actor is one message [MBye] which the actor sends
      when its plugins are deactivated (for a child: when it handles the shutdown
      request; in the code this may be later);
    - the unsubscriptions which precede the removal of a child are one message [MUnsub];
    - a foreign child which is told to shut down by the supervisor's own thread
      (child_manager.cpp 287-290) sends its trigger like any other message of its own,
      although the code touches the queue of the child from the wrong thread;
    - timers fire at any moment after they are started;
    - other actors, the start messages and the messages of other plugins are left out. *)
From stdpp Require Import base list gmap.
From Verif Require Import Base ChildMgrModel.
Open Scope N_scope.

Inductive fmsg :=
| MCreate (c : N)                       (* create_actor *)
| MSpawn (a : N)                        (* spawn_actor *)
| MInitReq (c : N)
| MInitResp (c : N) (failed : bool)
| MInitTimeout (c : N)                  (* the error response put by on_request_trigger *)
| MTrigger (a : N)                      (* shutdown_trigger *)
| MShutReq (c : N)
| MShutResp (c : N)
| MShutTimeout (c : N)
| MUnsub (c : N)                        (* the last subscription of a confirmed child is gone *)
| MBye (c : N).                         (* the handlers of c are gone *)
Global Instance fmsg_eq_dec : EqDecision fmsg.
Proof. solve_decision. Defined.

(** The child manager did not yet agree to shut down, agreed, was deactivated. *)
Inductive phase := PWorking | PAgreed | PLeft.
Global Instance phase_eq_dec : EqDecision phase.
Proof. solve_decision. Defined.

Record fstate := FState {
  f_cm : cstate;
  f_q : list fmsg;
  f_up : gmap N (list fmsg);
  f_down : gmap N (list fmsg);
  f_foreign : gset N;
  f_init : gset N;              (* init requests whose timer is armed *)
  f_shut : gset N;              (* shutdown requests whose timer is armed *)
  f_bye : gset N;               (* actors without handlers *)
  f_phase : phase
}.

(** What an operation decides about the child it creates, and about the answers of
    an actor. *)
Inductive fop :=
| FCreate (foreign early : bool)        (* create_actor; early: its configure calls do_shutdown *)
| FSpawn (cfg : scfg)
| FShutdown (a : N)                     (* do_shutdown of a child, or of the supervisor itself *)
| FDeliver (ok foreign early subs ask abn esc : bool)  (* the first message of the queue *)
| FChild (c : N) (abn esc : bool)       (* a foreign child takes its first message *)
| FUp (c : N)                           (* a message of a foreign child reaches the queue *)
| FChildInit (c : N) (failed : bool)    (* a child answers its init request *)
| FChildStart (c : N)
| FChildDone (c : N)                    (* shutdown_finish of a child *)
| FInitTimer (c : N) | FShutTimer (c : N) | FFire (id : N)
| FTick (d : N) | FLoopTime
| FInitialized                          (* init_finish of the supervisor *)
| FStarted                              (* the supervisor gets its start message *)
| FParentInit | FParentShutdown         (* the parent's requests, if there is a parent *)
| FVote | FDeactivate (mapping_empty ask : bool) | FLeave | FShutDown.

Section model.
Context (has_parent : bool) (policy : spolicy) (sync : bool).
Notation cstep := (cstep has_parent policy sync).

Definition set_q s x := FState (f_cm s) x (f_up s) (f_down s) (f_foreign s) (f_init s) (f_shut s) (f_bye s) (f_phase s).
Definition set_up s x := FState (f_cm s) (f_q s) x (f_down s) (f_foreign s) (f_init s) (f_shut s) (f_bye s) (f_phase s).
Definition set_down s x := FState (f_cm s) (f_q s) (f_up s) x (f_foreign s) (f_init s) (f_shut s) (f_bye s) (f_phase s).
Definition set_init s x := FState (f_cm s) (f_q s) (f_up s) (f_down s) (f_foreign s) x (f_shut s) (f_bye s) (f_phase s).
Definition set_shut s x := FState (f_cm s) (f_q s) (f_up s) (f_down s) (f_foreign s) (f_init s) x (f_bye s) (f_phase s).
Definition set_bye s x := FState (f_cm s) (f_q s) (f_up s) (f_down s) (f_foreign s) (f_init s) (f_shut s) x (f_phase s).
Definition set_phase s x := FState (f_cm s) (f_q s) (f_up s) (f_down s) (f_foreign s) (f_init s) (f_shut s) (f_bye s) x.
Definition set_foreign s x := FState (f_cm s) (f_q s) (f_up s) (f_down s) x (f_init s) (f_shut s) (f_bye s) (f_phase s).
Definition set_cm s x := FState x (f_q s) (f_up s) (f_down s) (f_foreign s) (f_init s) (f_shut s) (f_bye s) (f_phase s).

Definition upl (s : fstate) (c : N) : list fmsg := default [] (f_up s !! c).
Definition downl (s : fstate) (c : N) : list fmsg := default [] (f_down s !! c).

(** supervisor.h 185: put, in the locality of the supervisor *)
Definition push (s : fstate) (l : list fmsg) : fstate := set_q s (f_q s ++ l).
(** A message sent by child [c]. *)
Definition from (s : fstate) (c : N) (l : list fmsg) : fstate :=
  if decide (c ∈ f_foreign s) then set_up s (<[c := upl s c ++ l]> (f_up s)) else push s l.
(** A message sent by child [c] to itself. *)
Definition own (s : fstate) (c : N) (l : list fmsg) : fstate :=
  if decide (c ∈ f_foreign s) then set_down s (<[c := downl s c ++ l]> (f_down s)) else push s l.

(** The messages which an event of the child manager stands for. *)
Definition react (foreign early : bool) (s : fstate) (e : cevent) : fstate :=
  match e with
  | ESpawnMsg a => push s [MSpawn a]
  | ECreated c =>
      (* child_manager.cpp 178-181: do_initialize, then create_actor_t *)
      let s1 := if foreign then set_foreign s (f_foreign s ∪ {[c]}) else s in
      push (if early then from s1 c [MTrigger c] else s1) [MCreate c]
  | EInitReq c => push (set_init s (f_init s ∪ {[c]})) [MInitReq c]
  | EShutReq c => push (set_shut s (f_shut s ∪ {[c]})) [MShutReq c]
  | ESelfShutdown => if has_parent then s else push s [MTrigger 0]
  | EEscalate => push s [MTrigger 0]
  | EInitError => if has_parent then s else push s [MInitResp 0 true]
  | EChildShutdown c => from s c [MTrigger c]
  | EVoteShutdown b => if b then set_phase s PAgreed else s
  | _ => s
  end.

(** One step of the child manager. *)
Definition manage (foreign early : bool) (s : fstate) (o : cop) : res (fstate * list cevent) :=
  rbind (cstep (f_cm s) o) (fun '(cm, e) =>
    let s1 := foldl (react foreign early) (set_cm s cm) e in
    (* child_manager.cpp 323-334: cancel_init drops the request and its timer *)
    Ok (set_init s1 (f_init s1 ∩ cm_initout cm), e)).
Definition manage0 := manage false false.

(** A child changes. *)
Definition evolve (s : fstate) (c : N) (ch : child) : fstate :=
  set_cm s (set_children (f_cm s) (<[c := ch]> (cm_children (f_cm s)))).

(** A message for child [c] is handled by it: init_shutdown.cpp 45-67. *)
Definition child_handles (s : fstate) (c : N) (m : fmsg) (abn esc : bool) : fstate :=
  if decide (c ∈ f_bye s) then s
  else match cm_children (f_cm s) !! c with
  | None => s
  | Some ch =>
    match m with
    | MInitReq _ => evolve s c (Child (ch_state ch) (ch_abn ch) true)
    | MShutReq _ =>
        let ch' := Child AShuttingDown (match ch_abn ch with Some b => Some b | None => Some abn end) (ch_initreq ch) in
        (* actor_base.cpp 105-119: an actor may escalate *)
        let s1 := evolve s c ch' in
        own (if esc then from s1 c [MTrigger 0] else s1) c [MBye c]
    | MBye _ => set_bye s (f_bye s ∪ {[c]})
    | _ => s
    end
  end.

(** A message for the child [c] is at the head of the queue. *)
Definition to_child (s : fstate) (c : N) (m : fmsg) (abn esc : bool) : fstate :=
  if decide (c ∈ f_foreign s) then set_down s (<[c := downl s c ++ [m]]> (f_down s))
  else child_handles s c m abn esc.

Definition confirm (s : fstate) (c : N) (subs ask : bool) : res (fstate * list cevent) :=
  rbind (manage0 s (OConfirm c subs ask)) (fun '(s1, e) => Ok (if subs then push s1 [MUnsub c] else s1, e)).

(** The supervisor handles the first message of the queue. *)
Definition deliver (s : fstate) (m : fmsg) (ok foreign early subs ask abn esc : bool) : res (fstate * list cevent) :=
  match m with
  | MInitReq c => if c =? 0 then (if decide (0 ∈ f_bye s) then Ok (s, []) else manage0 s OInitRequest)
                  else Ok (to_child s c m abn esc, [])
  | MShutReq c => Ok (to_child s c m abn esc, [])
  | MBye c => if c =? 0 then Ok (set_bye s (f_bye s ∪ {[0]}), []) else Ok (to_child s c m abn esc, [])
  | _ =>
    if decide (0 ∈ f_bye s) then Ok (s, [])
    else match m with
    | MCreate c => manage0 s (OOnCreate c)
    | MSpawn a => manage foreign early s (OOnSpawn a ok)
    | MInitResp c failed =>
        if decide (c ∈ f_init s) then manage0 (set_init s (f_init s ∖ {[c]})) (OOnInit c failed) else Ok (s, [])
    | MInitTimeout c =>
        (* the request is answered although cancel_init may have come too late *)
        manage0 (set_cm s (set_initout (f_cm s) (cm_initout (f_cm s) ∪ {[c]}))) (OOnInit c true)
    | MTrigger a => manage0 s (OTrigger a)
    | MShutResp c => if decide (c ∈ f_shut s) then confirm (set_shut s (f_shut s ∖ {[c]})) c subs ask else Ok (s, [])
    | MShutTimeout c => confirm s c subs ask
    | MUnsub c => manage0 s (OUnsubLast c ask)
    | _ => Ok (s, [])
    end
  end.

Definition child_ready (s : fstate) (c : N) (st : astate) : option child :=
  match cm_children (f_cm s) !! c with
  | Some ch => if bool_decide (ch_state ch = st /\ c <> 0) then Some ch else None
  | None => None
  end.

Definition fstep (s : fstate) (o : fop) : res (fstate * list cevent) :=
  match o with
  | FCreate foreign early => manage foreign early s OCreate
  | FSpawn cfg => manage0 s (OSpawn cfg)
  | FShutdown a =>
      if a =? 0 then
        (* supervisor.cpp 76-88; the trigger of a supervisor with a parent goes to the parent *)
        Ok (if (rank (cm_state (f_cm s)) <? 5) && negb has_parent then push s [MTrigger 0] else s, [])
      else match cm_children (f_cm s) !! a with
      | Some ch => Ok (if rank (ch_state ch) <? 5 then from s a [MTrigger a] else s, [])
      | None => Ok (s, [])
      end
  | FDeliver ok foreign early subs ask abn esc =>
      match f_q s with
      | [] => Ok (s, [])
      | m :: q => deliver (set_q s q) m ok foreign early subs ask abn esc
      end
  | FChild c abn esc =>
      match downl s c with
      | [] => Ok (s, [])
      | m :: l => Ok (child_handles (set_down s (<[c := l]> (f_down s))) c m abn esc, [])
      end
  | FUp c =>
      match upl s c with
      | [] => Ok (s, [])
      | m :: l => Ok (push (set_up s (<[c := l]> (f_up s))) [m], [])
      end
  | FChildInit c failed =>
      match child_ready s c AInitializing with
      | Some ch =>
          if ch_initreq ch then
            let st := if failed then AInitializing else AInitialized in
            Ok (from (evolve s c (Child st (ch_abn ch) false)) c [MInitResp c failed], [])
          else Ok (s, [])
      | None => Ok (s, [])
      end
  | FChildStart c =>
      match child_ready s c AInitialized with
      | Some ch => Ok (evolve s c (Child AOperational (ch_abn ch) (ch_initreq ch)), [])
      | None => Ok (s, [])
      end
  | FChildDone c =>
      match child_ready s c AShuttingDown with
      | Some ch =>
          if decide (c ∈ f_bye s) then Ok (from (evolve s c (Child AShutDown (ch_abn ch) (ch_initreq ch))) c [MShutResp c], [])
          else Ok (s, [])
      | None => Ok (s, [])
      end
  | FInitTimer c =>
      (* supervisor.cpp 121-138 *)
      Ok (if decide (c ∈ f_init s) then push (set_init s (f_init s ∖ {[c]})) [MInitTimeout c] else s, [])
  | FShutTimer c =>
      Ok (if decide (c ∈ f_shut s) then push (set_shut s (f_shut s ∖ {[c]})) [MShutTimeout c] else s, [])
  | FFire id => manage0 s (OFire id)
  | FTick d => manage0 s (OTick d)
  | FLoopTime => manage0 s OLoopTime
  | FInitialized =>
      if bool_decide (cm_state (f_cm s) = AInitializing) && cm_initreq (f_cm s) then
        rbind (manage0 s (OState AInitialized)) (fun '(s1, e) => Ok (if has_parent then s1 else push s1 [MInitResp 0 false], e))
      else Ok (s, [])
  | FStarted => manage0 s OHandleStart
  | FParentInit => if has_parent then manage0 s OInitRequest else Ok (s, [])
  | FParentShutdown => if has_parent then manage0 s (OState AShuttingDown) else Ok (s, [])
  | FVote => if bool_decide (f_phase s = PWorking) then manage0 s OVoteShutdown else Ok (s, [])
  | FDeactivate m ask =>
      (* child_manager.cpp 84-91, called once: init_shutdown.cpp 70-73 *)
      if bool_decide (f_phase s = PAgreed) then
        rbind (manage0 (set_phase s PLeft) (ODeactivate m ask)) (fun '(s1, e) => Ok (if m then push s1 [MBye 0] else s1, e))
      else Ok (s, [])
  | FLeave =>
      (* child_manager.cpp 435-437 *)
      Ok (if bool_decide (f_phase s = PLeft) then push s [MBye 0] else s, [])
  | FShutDown => manage0 s (OState AShutDown)
  end.

Definition finit : fstate :=
  FState (cinit has_parent) (if has_parent then [] else [MInitReq 0]) ∅ ∅ ∅ (if has_parent then ∅ else {[0]}) ∅ ∅ PWorking.
End model.
