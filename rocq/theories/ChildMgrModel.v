(** Model of the child manager plugin of a supervisor, with spawners.

    Code: src/rotor/plugin/child_manager.cpp 65-508, src/rotor/detail/child_info.cpp
    12-82, include/rotor/detail/child_info.h, include/rotor/policy.h,
    src/rotor/supervisor.cpp 76-88 (do_shutdown), 113-117 (on_child_shutdown),
    src/rotor/actor_base.cpp 35-46 (do_shutdown), 105-119 (shutdown_start: only its
    state change), src/rotor/spawner.cpp.

    One supervisor with address 0 is modelled.  The list of operations is the
    history: calls of the user (create_actor, spawn), deliveries of the messages
    the plugin subscribes to, timers, the votes asked by the life cycle of the
    supervisor and the state changes of supervisor and children.

    Simplifications:
    - an actor instance and its address are the same number; addresses are never
      reused; spawners have a ghost number [ci_sid];
    - the order of messages in the queue is left to the schedule: pending
      spawn_actor messages ([cm_spawnq]), create_actor messages ([cm_createq]),
      init requests ([cm_initout]) and shutdown requests ([cm_shutout]) are sets
      from which any element may be delivered (C01 gives the real order);
    - shutdown_continue / init_continue of the supervisor are events; the votes
      they ask for are separate operations;
    - a factory either throws before it creates the actor or returns an actor
      made by [supervisor.create_actor] with the spawner address;
    - of an error only "the root code is non-zero" is kept;
    - the address mapping of a child is reduced to "there are subscriptions to be
      removed first" ([OConfirm]'s second flag, [OUnsubLast]);
    - time is a number of microseconds; [cm_now] is [clock_t::local_time()] and
      [cm_loop] the clock value from which the loop computes deadlines (thread
      backend: cached by update_time);
    - cross-thread reads of a child's fields are atomic. *)
From stdpp Require Import base list gmap.
From Verif Require Import Base.
From Verif Require Export StateModel.
Open Scope N_scope.

(** include/rotor/policy.h *)
Inductive restart := RAlways | RNever | RAskActor | RNormalOnly | RFailOnly.
Global Instance restart_eq_dec : EqDecision restart.
Proof. solve_decision. Defined.
Inductive spolicy := PShutdownSelf | PShutdownFailed.
Global Instance spolicy_eq_dec : EqDecision spolicy.
Proof. solve_decision. Defined.

(** detail/child_info.h:21 *)
Inductive shutst := SNone | SSent | SConfirmed.
Global Instance shutst_eq_dec : EqDecision shutst.
Proof. solve_decision. Defined.

(** Arguments of spawner_t. *)
Record scfg := SCfg { sc_policy : restart; sc_period : N; sc_max : N; sc_escalate : bool }.

(** detail/child_info.h:33-110 *)
Record cinfo := CInfo {
  ci_sid : option N;            (* factory != nullptr; the number identifies the spawner *)
  ci_cfg : scfg;                (* policy, restart_period, max_attempts, escalate_failure *)
  ci_actor : option N;
  ci_shut : shutst;
  ci_attempts : N;
  ci_active : bool;
  ci_timer : N;                 (* timer_id, 0 = none *)
  ci_last : N;                  (* last_instantiation *)
  ci_initialized : bool;
  ci_started : bool
}.

(** What the plugin can see of an actor. *)
Record child := Child {
  ch_state : astate;
  ch_abn : option bool;         (* shutdown_reason, and whether its root code is non-zero *)
  ch_initreq : bool             (* init_request is set *)
}.

Record cstate := CState {
  cm_state : astate;            (* of the supervisor *)
  cm_initreq : bool;            (* its init_request is set *)
  cm_map : gmap N cinfo;        (* actors_map *)
  cm_spawning : gmap N N;       (* spawning_map: timer -> key of the child_info *)
  cm_timers : gmap N N;         (* armed timers and their deadlines *)
  cm_children : gmap N child;   (* all instances ever made *)
  cm_spawnq : list N;           (* spawn_actor messages under way *)
  cm_createq : list N;          (* create_actor messages under way *)
  cm_initout : gset N;          (* children whose init request is unanswered *)
  cm_shutout : gset N;          (* children whose shutdown request is unanswered *)
  cm_unsub : gset N;            (* confirmed children whose subscriptions are being removed *)
  cm_next : N;                  (* fresh addresses *)
  cm_sids : N;                  (* fresh spawner numbers *)
  cm_tid : N;                   (* fresh timer ids *)
  cm_now : N;
  cm_loop : N
}.

Inductive cevent :=
| ESpawner (sid : N) (cfg : scfg)         (* a spawner is installed *)
| EAttempt (sid t : N)                  (* the factory is called *)
| EInstance (sid c t : N)               (* ... and made actor c *)
| ECreated (c : N)                      (* any new child *)
| ERemoved (c : N) (sid : option N) (abn ask : bool)
| ESpawnMsg (a : N)                     (* spawn_actor sent *)
| ESpawnTimer (id : N)
| EInitReq (c : N)
| EInitError                            (* the supervisor answers its own init request with an error *)
| EInitOk (c : N)                       (* a successful init response is taken *)
| ESupStart                             (* the supervisor itself starts *)
| EStart (c : N)
| EShutReq (c : N)
| ESelfShutdown                         (* supervisor.do_shutdown *)
| EEscalate                             (* shutdown_trigger for the supervisor itself *)
| EChildShutdown (c : N)                (* child.do_shutdown *)
| EShutdownStart | EShutdownContinue | EInitContinue
| EVoteInit (b : bool) | EVoteShutdown (b : bool).

Inductive cop :=
| OCreate                               (* create_actor by the user *)
| OSpawn (cfg : scfg)                   (* spawner_t::spawn *)
| OOnSpawn (a : N) (ok : bool)          (* spawn_actor delivered; the factory's outcome *)
| OOnCreate (a : N)
| OOnInit (a : N) (failed : bool)       (* init_response; a = 0: of the supervisor itself *)
| OTrigger (a : N)                      (* shutdown_trigger *)
| OConfirm (a : N) (subs ask : bool)    (* shutdown_response *)
| OUnsubLast (a : N) (ask : bool)
| OVoteInit | OVoteShutdown | OHandleStart
| OFire (id : N)
| OTick (d : N)
| OLoopTime
| OInitRequest                          (* the supervisor's init request arrives *)
| OState (s : astate)                   (* other state changes of the supervisor *)
| OChild (c : N) (ch : child)           (* a child evolves *)
| ODeactivate (mapping_empty ask : bool).

Section model.
(** Settings of the supervisor. *)
Context (has_parent : bool) (policy : spolicy) (sync : bool).

Definition set_state s x := CState x (cm_initreq s) (cm_map s) (cm_spawning s) (cm_timers s) (cm_children s) (cm_spawnq s) (cm_createq s) (cm_initout s) (cm_shutout s) (cm_unsub s) (cm_next s) (cm_sids s) (cm_tid s) (cm_now s) (cm_loop s).
Definition set_initreq s x := CState (cm_state s) x (cm_map s) (cm_spawning s) (cm_timers s) (cm_children s) (cm_spawnq s) (cm_createq s) (cm_initout s) (cm_shutout s) (cm_unsub s) (cm_next s) (cm_sids s) (cm_tid s) (cm_now s) (cm_loop s).
Definition set_map s x := CState (cm_state s) (cm_initreq s) x (cm_spawning s) (cm_timers s) (cm_children s) (cm_spawnq s) (cm_createq s) (cm_initout s) (cm_shutout s) (cm_unsub s) (cm_next s) (cm_sids s) (cm_tid s) (cm_now s) (cm_loop s).
Definition set_children s x := CState (cm_state s) (cm_initreq s) (cm_map s) (cm_spawning s) (cm_timers s) x (cm_spawnq s) (cm_createq s) (cm_initout s) (cm_shutout s) (cm_unsub s) (cm_next s) (cm_sids s) (cm_tid s) (cm_now s) (cm_loop s).
Definition set_spawnq s x := CState (cm_state s) (cm_initreq s) (cm_map s) (cm_spawning s) (cm_timers s) (cm_children s) x (cm_createq s) (cm_initout s) (cm_shutout s) (cm_unsub s) (cm_next s) (cm_sids s) (cm_tid s) (cm_now s) (cm_loop s).
Definition set_createq s x := CState (cm_state s) (cm_initreq s) (cm_map s) (cm_spawning s) (cm_timers s) (cm_children s) (cm_spawnq s) x (cm_initout s) (cm_shutout s) (cm_unsub s) (cm_next s) (cm_sids s) (cm_tid s) (cm_now s) (cm_loop s).
Definition set_initout s x := CState (cm_state s) (cm_initreq s) (cm_map s) (cm_spawning s) (cm_timers s) (cm_children s) (cm_spawnq s) (cm_createq s) x (cm_shutout s) (cm_unsub s) (cm_next s) (cm_sids s) (cm_tid s) (cm_now s) (cm_loop s).
Definition set_shutout s x := CState (cm_state s) (cm_initreq s) (cm_map s) (cm_spawning s) (cm_timers s) (cm_children s) (cm_spawnq s) (cm_createq s) (cm_initout s) x (cm_unsub s) (cm_next s) (cm_sids s) (cm_tid s) (cm_now s) (cm_loop s).
Definition set_unsub s x := CState (cm_state s) (cm_initreq s) (cm_map s) (cm_spawning s) (cm_timers s) (cm_children s) (cm_spawnq s) (cm_createq s) (cm_initout s) (cm_shutout s) x (cm_next s) (cm_sids s) (cm_tid s) (cm_now s) (cm_loop s).
Definition set_timing s sp ti tid := CState (cm_state s) (cm_initreq s) (cm_map s) sp ti (cm_children s) (cm_spawnq s) (cm_createq s) (cm_initout s) (cm_shutout s) (cm_unsub s) (cm_next s) (cm_sids s) tid (cm_now s) (cm_loop s).
Definition set_fresh s n k := CState (cm_state s) (cm_initreq s) (cm_map s) (cm_spawning s) (cm_timers s) (cm_children s) (cm_spawnq s) (cm_createq s) (cm_initout s) (cm_shutout s) (cm_unsub s) n k (cm_tid s) (cm_now s) (cm_loop s).
Definition set_clock s n l := CState (cm_state s) (cm_initreq s) (cm_map s) (cm_spawning s) (cm_timers s) (cm_children s) (cm_spawnq s) (cm_createq s) (cm_initout s) (cm_shutout s) (cm_unsub s) (cm_next s) (cm_sids s) (cm_tid s) n l.

Definition put_info s a i := set_map s (<[a := i]> (cm_map s)).
Definition i_actor i x := CInfo (ci_sid i) (ci_cfg i) x (ci_shut i) (ci_attempts i) (ci_active i) (ci_timer i) (ci_last i) (ci_initialized i) (ci_started i).
Definition i_shut i x := CInfo (ci_sid i) (ci_cfg i) (ci_actor i) x (ci_attempts i) (ci_active i) (ci_timer i) (ci_last i) (ci_initialized i) (ci_started i).
Definition i_active i x := CInfo (ci_sid i) (ci_cfg i) (ci_actor i) (ci_shut i) (ci_attempts i) x (ci_timer i) (ci_last i) (ci_initialized i) (ci_started i).
Definition i_timer i x := CInfo (ci_sid i) (ci_cfg i) (ci_actor i) (ci_shut i) (ci_attempts i) (ci_active i) x (ci_last i) (ci_initialized i) (ci_started i).
Definition i_flags i x y := CInfo (ci_sid i) (ci_cfg i) (ci_actor i) (ci_shut i) (ci_attempts i) (ci_active i) (ci_timer i) (ci_last i) x y.

(** child_info.cpp:12-24 *)
Definition spawn_attempt (i : cinfo) (now : N) : cinfo :=
  let att := ci_attempts i + 1 in
  let c := ci_cfg i in
  let stop := ((0 <? sc_max c) && (sc_max c <=? att)) || bool_decide (sc_policy c = RNever) in
  CInfo (ci_sid i) c (ci_actor i) SNone att (ci_active i && negb stop) 0 now false false.

Inductive demand := DNo | DNow | DEscalate | DAfter.

(** child_info.cpp:26-82; [ask] is the answer of [actor->should_restart()] *)
Definition next_spawn (i : cinfo) (abn ask : bool) (now : N) : cinfo * demand :=
  let c := ci_cfg i in
  if negb (ci_timer i =? 0) then (i, DNo)
  else if sc_escalate c && (0 <? sc_max c) && (sc_max c <=? ci_attempts i) then (i, DEscalate)
  else if sc_escalate c && abn && bool_decide (sc_policy c = RAlways) && negb (ci_active i) then (i_active i false, DEscalate)
  else if sc_escalate c && abn && bool_decide (sc_policy c = RNormalOnly) then (i_active i false, DEscalate)
  else if negb (ci_active i) then (i, DNo)
  else if bool_decide (sc_policy c = RFailOnly) && negb abn then (i_active i false, DNo)
  else if bool_decide (sc_policy c = RNormalOnly) && abn then (i_active i false, DNo)
  else if bool_decide (sc_policy c = RAskActor) && negb ask then (i_active i false, DNo)
  else if sc_period c <=? now - ci_last i then (i, DNow) else (i, DAfter).

(** child_manager.cpp:455-470 *)
Definition initializing (s : cstate) (a : N) (i : cinfo) : bool :=
  match ci_actor i with
  | None => false
  | Some c =>
      match cm_children s !! c with
      | Some ch => negb (a =? 0) && (rank (ch_state ch) <=? 2) && negb (ci_initialized i)
      | None => negb (a =? 0)     (* impossible: every actor of the map is known *)
      end
  end.
Definition has_initializing (s : cstate) : bool :=
  existsb (fun '(a, i) => initializing s a i) (map_to_list (cm_map s)).

(** child_manager.cpp:472-483 *)
Definition is_alive (st : astate) (i : cinfo) : bool :=
  bool_decide (is_Some (ci_actor i)) || negb (ci_timer i =? 0) || (ci_active i && (rank st <=? 5)).
Definition active_actors (s : cstate) : nat :=
  length (List.filter (fun '(_, i) => is_alive (cm_state s) i) (map_to_list (cm_map s))).

(** child_manager.cpp:323-334 *)
Definition cancel_init (s : cstate) (c : N) : cstate :=
  match cm_children s !! c with
  | Some ch => if ch_initreq ch then set_initout s (cm_initout s ∖ {[c]}) else s
  | None => s
  end.

(** child_manager.cpp:168-176 *)
Definition init_continue (s : cstate) : list cevent :=
  if bool_decide (cm_state s = AInitializing) && cm_initreq s && negb (has_initializing s) then [EInitContinue] else [].

(** supervisor.cpp:76-88 *)
Definition self_shutdown (s : cstate) : list cevent := if rank (cm_state s) <? 5 then [ESelfShutdown] else [].
(** actor_base.cpp:35-46 *)
Definition child_shutdown (s : cstate) (c : N) : list cevent :=
  match cm_children s !! c with
  | Some ch => if rank (ch_state ch) <? 5 then [EChildShutdown c] else []
  | None => []
  end.

(** supervisor.h:378-392 *)
Definition start_timer (s : cstate) (key period : N) : cstate * N :=
  let id := cm_tid s + 1 in
  (set_timing s (<[id := key]> (cm_spawning s)) (<[id := cm_loop s + period]> (cm_timers s)) id, id).

(** child_manager.cpp:93-166 *)
Definition remove_child (s : cstate) (a : N) (ask : bool) : res (cstate * list cevent) :=
  match cm_map s !! a with
  | None => AssertFail
  | Some i =>
    let '(s1, e1) :=
      if bool_decide (cm_state s = AInitializing) && negb (ci_started i) then
        if bool_decide (policy = PShutdownFailed) then (s, self_shutdown s)
        else if cm_initreq s then (set_initreq s false, [EInitError]) else (s, [])
      else (s, []) in
    match ci_actor i with
    | None => Crash
    | Some c =>
      let s2 := cancel_init s1 c in
      let abn := match cm_children s2 !! c with Some ch => default false (ch_abn ch) | None => false end in
      let '(s3, e3, i3, erase) :=
        if (rank (cm_state s2) <=? 4) && bool_decide (is_Some (ci_sid i)) then
          match next_spawn i abn ask (cm_now s2) with
          | (i', DNow) => (set_spawnq s2 (cm_spawnq s2 ++ [a]), [ESpawnMsg a], i', false)
          | (i', DEscalate) => (s2, [EEscalate], i', true)
          | (i', DAfter) =>
              let '(s', id) := start_timer s2 a (sc_period (ci_cfg i')) in
              (s', [ESpawnTimer id], i_timer i' id, false)
          | (i', DNo) => (s2, [], i', true)
          end
        else (s2, [], i, true) in
      let i4 := i_actor i3 None in
      let s4 := if erase then set_map s3 (delete a (cm_map s3)) else put_info s3 a i4 in
      let e4 := if bool_decide (cm_state s4 = AShuttingDown) && (active_actors s4 <=? 1)%nat then [EShutdownContinue] else [] in
      Ok (s4, e1 ++ ERemoved c (ci_sid i) abn ask :: e3 ++ e4 ++ init_continue s4)
    end
  end.

(** child_manager.cpp:178-200; [key] is the spawner address *)
Definition create_child (s : cstate) (key : option (N * cinfo)) : cstate * N :=
  let c := cm_next s in
  let s1 := set_fresh s (c + 1) (cm_sids s) in
  let s2 := set_createq s1 (cm_createq s1 ++ [c]) in
  let s3 := set_children s2 (<[c := Child AInitializing None false]> (cm_children s2)) in
  match key with
  | Some (a, i) => (set_map s3 (<[c := i_actor i (Some c)]> (delete a (cm_map s3))), c)
  | None =>
      let i := CInfo None (SCfg RNormalOnly 15000000 0 false) (Some c) SNone 0 true 0 0 false false in
      (put_info s3 c (spawn_attempt i (cm_now s3)), c)
  end.

(** child_manager.cpp:485-493 *)
Definition spawn (s : cstate) (cfg : scfg) : cstate * list cevent :=
  let a := cm_next s in
  let sid := cm_sids s in
  let s1 := set_fresh s (a + 1) (sid + 1) in
  let s2 := put_info s1 a (CInfo (Some sid) cfg None SNone 0 true 0 0 false false) in
  (set_spawnq s2 (cm_spawnq s2 ++ [a]), [ESpawner sid cfg; ESpawnMsg a]).

Fixpoint take_first (a : N) (l : list N) : option (list N) :=
  match l with
  | [] => None
  | x :: r => if x =? a then Some r else option_map (cons x) (take_first a r)
  end.

(** child_manager.cpp:210-253 *)
Definition on_spawn (s : cstate) (a : N) (ok : bool) : res (cstate * list cevent) :=
  match cm_map s !! a with
  | None => AssertFail
  | Some i =>
    if negb (ci_active i) then Ok (s, [])
    else
      let i1 := spawn_attempt i (cm_now s) in
      let sid := default 0 (ci_sid i) in
      let made := ok && bool_decide (is_Some (ci_sid i)) in
      let att := EAttempt sid (cm_now s) in
      if made then
        let '(s1, c) := create_child s (Some (a, i1)) in
        Ok (s1, [att; ECreated c; EInstance sid c (cm_now s)])
      else
        let try0 := bool_decide (sc_policy (ci_cfg i) = RAlways) || bool_decide (sc_policy (ci_cfg i) = RFailOnly) in
        let '(s1, e1, try1) :=
          if bool_decide (cm_state s = AInitializing) && bool_decide (policy = PShutdownSelf) then
            if cm_initreq s then (set_initreq s false, [EInitError], false) else (s, self_shutdown s, false)
          else (s, [], try0) in
        if try1 then
          let '(s2, id) := start_timer s1 a (sc_period (ci_cfg i1)) in
          Ok (put_info s2 a (i_timer i1 id), att :: e1 ++ [ESpawnTimer id])
        else Ok (put_info s1 a (i_active i1 false), att :: e1)
  end.

(** child_manager.cpp:202-208 *)
Definition on_create (s : cstate) (a : N) : res (cstate * list cevent) :=
  match cm_map s !! a with
  | None => AssertFail
  | Some _ => Ok (set_initout s (cm_initout s ∪ {[a]}), [EInitReq a])
  end.

(** child_manager.cpp:255-310 *)
Definition on_init (s : cstate) (a : N) (failed : bool) : res (cstate * list cevent) :=
  let cont := negb failed && negb (has_initializing s) in
  let found := cm_map s !! a in
  if failed then
    if bool_decide (cm_state s = AInitializing) && bool_decide (policy = PShutdownSelf) then
      if cm_initreq s then
        if a =? 0 then Ok (s, self_shutdown s) else Ok (set_initreq s false, [EInitError])
      else Ok (s, self_shutdown s)
    else
      match found with
      | Some i => match ci_actor i with
                  | Some c => Ok (s, if c =? 0 then self_shutdown s else child_shutdown s c)
                  | None => Crash
                  end
      | None => Ok (s, self_shutdown s)
      end
  else
    let '(s1, e1) :=
      match found with
      | Some i =>
          let do_start := if a =? 0 then rank (cm_state s) <=? 4 else negb sync in
          (put_info s a (i_flags i true (ci_started i || do_start)), EInitOk a :: if do_start then [EStart a] else [])
      | None => (s, [])
      end in
    Ok (s1, e1 ++ (if cont then init_continue s1 else [])).

(** child_manager.cpp:416-426, 495-508: what happens to the children when the
    whole supervisor asks for shutdown *)
Definition ask_child (i : cinfo) : cinfo :=
  match ci_actor i with
  | Some _ => match ci_shut i with SNone => i_shut i SSent | _ => i end
  | None => if ci_timer i =? 0 then i else i_active (i_timer i 0) false
  end.
Definition asked (i : cinfo) : option N :=
  match ci_actor i, ci_shut i with Some c, SNone => Some c | _, _ => None end.
Definition dropped_timer (i : cinfo) : option N :=
  match ci_actor i with None => if ci_timer i =? 0 then None else Some (ci_timer i) | Some _ => None end.
Definition ask_events (s : cstate) (i : cinfo) : list cevent :=
  match asked i, dropped_timer i with
  | Some c, _ => [EShutReq c]
  | None, Some _ => if bool_decide (cm_state s = AShuttingDown) then [EShutdownContinue] else []
  | None, None => []
  end.
Definition request_shutdown_all (s : cstate) : cstate * list cevent :=
  let is := (map_to_list (cm_map s)).*2 in
  let cs := omap asked is in
  let ts := omap dropped_timer is in
  let s1 := foldl cancel_init s cs in
  let s2 := set_shutout s1 (cm_shutout s1 ∪ list_to_set cs) in
  let s3 := set_timing s2 (foldr delete (cm_spawning s2) ts) (foldr delete (cm_timers s2) ts) (cm_tid s2) in
  (set_map s3 (ask_child <$> cm_map s3), concat (ask_events s <$> is)).

(** child_manager.cpp:384-414 *)
Definition request_shutdown (s : cstate) (a : N) (i : cinfo) : res (cstate * list cevent) :=
  match ci_shut i with
  | SNone =>
    match ci_actor i with
    | None => Crash
    | Some c =>
      let s1 := cancel_init s c in
      if c =? 0 then
        if has_parent then Ok (put_info s1 a (i_shut i SSent), self_shutdown s1)
        else if bool_decide (cm_state s1 = AShuttingDown) then Ok (put_info s1 a (i_shut i SSent), [])
        else
          let s2 := set_state (put_info s1 a (i_shut i SConfirmed)) AShuttingDown in
          let '(s3, e3) := request_shutdown_all s2 in
          Ok (put_info s3 a (i_shut i SSent), EShutdownStart :: e3 ++ [EShutdownContinue])
      else Ok (put_info (set_shutout s1 (cm_shutout s1 ∪ {[c]})) a (i_shut i SSent), [EShutReq c])
    end
  | _ => Ok (s, [])
  end.

(** child_manager.cpp:312-316 *)
Definition on_shutdown_trigger (s : cstate) (a : N) : res (cstate * list cevent) :=
  match cm_map s !! a with
  | None => Crash
  | Some i => request_shutdown s a i
  end.

(** child_manager.cpp:336-362; supervisor.cpp:113-117 *)
Definition on_child_shutdown (s : cstate) (a : N) : list cevent :=
  if negb (a =? 0) && bool_decide (cm_state s = AShuttingDown) then [EShutdownContinue] else [].
Definition on_shutdown_confirm (s : cstate) (a : N) (subs ask : bool) : res (cstate * list cevent) :=
  match cm_map s !! a with
  | None => Crash
  | Some i =>
    let s1 := put_info s a (i_shut i SConfirmed) in
    match ci_actor i with
    | None => Crash
    | Some _ =>
      if subs then Ok (set_unsub s1 (cm_unsub s1 ∪ {[a]}), on_child_shutdown s1 a)
      else rbind (remove_child s1 a ask) (fun '(s2, e2) => Ok (s2, e2 ++ on_child_shutdown s2 a))
    end
  end.

(** child_manager.cpp:364 *)
Definition handle_init (s : cstate) : bool := negb (has_initializing s).

(** child_manager.cpp:366-382 *)
Definition handle_shutdown (s : cstate) : res (cstate * list cevent) :=
  match cm_map s !! 0 with
  | None => Crash
  | Some i =>
    let '(s1, e1) := request_shutdown_all (put_info s 0 (i_shut i SConfirmed)) in
    Ok (s1, e1 ++ [EVoteShutdown (active_actors s1 =? 1)%nat])
  end.

(** child_manager.cpp:441-453 *)
Definition handle_start (s : cstate) : cstate * list cevent :=
  if sync then
    (set_map s (map_imap (fun a i => Some (if a =? 0 then i else i_flags i (ci_initialized i) true)) (cm_map s)),
     omap (fun '(a, _) => if a =? 0 then None else Some (EStart a)) (map_to_list (cm_map s)))
  else (s, []).

(** child_manager.cpp:495-508, not cancelled *)
Definition on_spawn_timer (s : cstate) (id : N) : res (cstate * list cevent) :=
  match cm_spawning s !! id with
  | None => AssertFail
  | Some key =>
    let s1 := set_timing s (delete id (cm_spawning s)) (delete id (cm_timers s)) (cm_tid s) in
    match cm_map s1 !! key with
    | None => AssertFail
    | Some i =>
      let s2 := put_info s1 key (i_timer i 0) in
      if rank (cm_state s2) <=? 4 then Ok (set_spawnq s2 (cm_spawnq s2 ++ [key]), [ESpawnMsg key]) else Ok (s2, [])
    end
  end.

(** child_manager.cpp:84-91 *)
Definition deactivate (s : cstate) (mapping_empty ask : bool) : res (cstate * list cevent) :=
  if mapping_empty && (active_actors s =? 1)%nat then remove_child s 0 ask else Ok (s, []).

(** A child only moves forward, keeps its first reason, and (like every actor)
    cannot take back its init request once the supervisor cannot see an answer. *)
Definition child_moves (o n : child) : Prop :=
  rank (ch_state o) <= rank (ch_state n) /\ (is_Some (ch_abn o) -> ch_abn n = ch_abn o).
Global Instance child_moves_dec o n : Decision (child_moves o n).
Proof. unfold child_moves. apply _. Defined.

(** Life cycle of the supervisor outside the plugin (C24). *)
Definition sup_moves (o n : astate) : bool :=
  match o, n with
  | ANew, AInitializing | AInitializing, AInitialized => true
  | AShuttingDown, AShutDown => true
  | (ANew | AInitializing | AInitialized | AOperational), AShuttingDown => has_parent
  | _, _ => false
  end.

Definition cstep (s : cstate) (o : cop) : res (cstate * list cevent) :=
  match o with
  | OCreate => let '(s1, c) := create_child s None in Ok (s1, [ECreated c])
  | OSpawn cfg => Ok (spawn s cfg)
  | OOnSpawn a ok =>
      match take_first a (cm_spawnq s) with
      | Some q => on_spawn (set_spawnq s q) a ok
      | None => Ok (s, [])
      end
  | OOnCreate a =>
      match take_first a (cm_createq s) with
      | Some q => on_create (set_createq s q) a
      | None => Ok (s, [])
      end
  | OOnInit a failed =>
      if bool_decide (a ∈ cm_initout s) then on_init (set_initout s (cm_initout s ∖ {[a]})) a failed else Ok (s, [])
  | OTrigger a => on_shutdown_trigger s a
  | OConfirm a subs ask =>
      if bool_decide (a ∈ cm_shutout s) then on_shutdown_confirm (set_shutout s (cm_shutout s ∖ {[a]})) a subs ask
      else Ok (s, [])
  | OUnsubLast a ask =>
      if bool_decide (a ∈ cm_unsub s) then remove_child (set_unsub s (cm_unsub s ∖ {[a]})) a ask else Ok (s, [])
  | OVoteInit => Ok (s, [EVoteInit (handle_init s)])
  | OVoteShutdown =>
      if bool_decide (cm_state s = AShuttingDown) then handle_shutdown s else Ok (s, [])
  | OHandleStart =>
      (* starter.cpp:67-86: on_start asks every plugin, the state becomes OPERATIONAL *)
      if bool_decide (cm_state s = AInitialized) then
        let '(s1, e1) := handle_start s in Ok (set_state s1 AOperational, ESupStart :: e1)
      else Ok (s, [])
  | OFire id =>
      match cm_timers s !! id with
      | Some d => if d <=? cm_now s then on_spawn_timer s id else Ok (s, [])
      | None => Ok (s, [])
      end
  | OTick d => Ok (set_clock s (cm_now s + d) (cm_loop s), [])
  | OLoopTime => Ok (set_clock s (cm_now s) (cm_now s), [])
  | OInitRequest =>
      (* init_shutdown.cpp:45-52 *)
      Ok (if bool_decide (cm_state s = AInitializing) then set_initreq s true else s, [])
  | OState st =>
      if sup_moves (cm_state s) st then
        Ok (set_initreq (set_state s st) (if bool_decide (st = AInitialized) then false else cm_initreq s), [])
      else Ok (s, [])
  | OChild c ch =>
      match cm_children s !! c with
      | Some old => if decide (child_moves old ch) then Ok (set_children s (<[c := ch]> (cm_children s)), []) else Ok (s, [])
      | None => Ok (s, [])
      end
  | ODeactivate m ask => if bool_decide (cm_state s = AShuttingDown) then deactivate s m ask else Ok (s, [])
  end.

(** child_manager.cpp:65-82: the supervisor itself is an entry of actors_map. *)
Definition self_info : cinfo :=
  spawn_attempt (CInfo None (SCfg RNormalOnly 15000000 0 false) (Some 0) SNone 0 true 0 0 false false) 0.
Definition cinit : cstate :=
  CState AInitializing false {[0 := self_info]} ∅ ∅ {[0 := Child AInitializing None false]}
         [] [] (if has_parent then ∅ else {[0]}) ∅ ∅ 1 0 0 0 0.
End model.
