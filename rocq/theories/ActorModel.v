(** Model of one actor with the plugins link_server, link_client, registry,
    resources and starter working together.

    Code: src/rotor/plugin/link_server.cpp 31-133, src/rotor/plugin/link_client.cpp
    41-171, src/rotor/plugin/registry.cpp 48-282, src/rotor/plugin/resources.cpp
    30-95, src/rotor/plugin/starter.cpp 27-86, src/rotor/plugin/init_shutdown.cpp
    45-73, src/rotor/actor_base.cpp 95-193 (init_finish, shutdown_start,
    shutdown_finish, init_continue, shutdown_continue), include/rotor/actor_base.h
    70-78 (order of the plugins), include/rotor/supervisor.h 531-565 and
    src/rotor/supervisor.cpp 121-144 (requests and timeouts).

    The actor is observed from the end of do_initialize.  What other actors and
    the user code do is left open: messages come in any order; the user code of
    configure() is given by [cfg], that of message handlers by the operations
    [OUser].

    Simplifications:
    - addresses, names, resources and requests are numbers;
    - the requests of the actor are those of request_map: a response to a pending
      request reaches the actor at once (the supervisor puts it to the front of
      the queue, C11), a response to another one is dropped (C08); the response
      made by a timeout is put to the queue ([x_late]) and delivered later;
    - the polling loops do not nest here: user code which runs inside of the init
      loop sees PROGRESS_INIT; no user code runs inside of the shutdown loop (an
      on_unlink which releases resources is not covered);
    - init_shutdown agrees at once; lifetime agrees when the actor has no
      subscription left ([x_pts]), which is reported by [OUnsubscribed];
    - plugins without init work (address_maker, lifetime) are left out of the init
      loop; the start trigger runs handle_start of the starter, then of the link
      server;
    - a shut down actor gets no messages; a second shutdown request does not come
      (C30);
    - a task writes the discovered address to a variable of its own;
    - callbacks of the user given to link() and discover_name() do nothing
      (an [OUser] operation may follow). *)
From stdpp Require Import base list gmap.
From Verif Require Import Base Prog.
From Verif Require Export StateModel.
Open Scope N_scope.
Local Open Scope prog_scope.

(** The plugins which take part; [PLife] is lifetime. *)
Inductive plug := PLife | PLs | PLc | PRg | PRs | PSt.
Global Instance plug_eq_dec : EqDecision plug.
Proof. solve_decision. Defined.

(** link_server.h 55-64: state of a client; PENDING keeps the request, UNLINKING
    the id of the unlink request. *)
Inductive cstate := CPending (r : N) | COperational | CUnlinking (id : N).
(** link_client.h 85-90: state of a server. *)
Inductive sstate := SLinking (id : N) | SOperational.
(** The callback of a link: none, registry.cpp:126, registry.cpp:214-223. *)
Inductive lcb := CbNone | CbRegistry | CbTask (n : N).
Record srec := SRec { sr_cb : lcb; sr_st : sstate }.
(** registry.h *)
Inductive rstate := RRegistering | ROperational.
Inductive tstate := TPassive | TDiscovering | TCancelling.
Record task := Task { t_delayed : bool; t_oponly : bool; t_st : tstate; t_addr : option N }.
(** What a pending request is about. *)
Inductive query := QLink (a : N) | QReg (n : N) | QDisc (n : N) | QUnlink (c : N).
Global Instance cstate_eq_dec : EqDecision cstate.
Proof. solve_decision. Defined.
Global Instance sstate_eq_dec : EqDecision sstate.
Proof. solve_decision. Defined.
Global Instance lcb_eq_dec : EqDecision lcb.
Proof. solve_decision. Defined.
Global Instance srec_eq_dec : EqDecision srec.
Proof. solve_decision. Defined.
Global Instance rstate_eq_dec : EqDecision rstate.
Proof. solve_decision. Defined.
Global Instance tstate_eq_dec : EqDecision tstate.
Proof. solve_decision. Defined.
Global Instance query_eq_dec : EqDecision query.
Proof. solve_decision. Defined.

Record astore := AStore {
  x_st : astate;                  (* state *)
  x_ireq : bool;                  (* init_request is held *)
  x_sreq : bool;                  (* shutdown_request is held *)
  x_i : plug -> bool;             (* reaction INIT *)
  x_d : plug -> bool;             (* reaction SHUTDOWN *)
  x_s : bool;                     (* reaction START of the link server *)
  x_sub : bool;                   (* reaction SUBSCRIPTION of the starter *)
  x_conf : plug -> bool;          (* configured flags *)
  x_prog : bool;                  (* PROGRESS_INIT *)
  x_cl : gmap N cstate;           (* linked_clients *)
  x_sv : gmap N srec;             (* servers_map *)
  x_uq : list N;                  (* unlink_queue: the servers which asked *)
  x_lking : bool;                 (* plugin_state LINKING *)
  x_lked : bool;                  (* plugin_state LINKED *)
  x_rm : gmap N rstate;           (* register_map *)
  x_dm : gmap N task;             (* discovery_map *)
  x_al : gmap N (list N);         (* aliases_map *)
  x_res : gmap N N;               (* resources *)
  x_trk : nat;                    (* tracked subscriptions of the starter *)
  x_pend : gmap N query;          (* requests of this actor in request_map *)
  x_late : list query;            (* timeout responses in the queue *)
  x_next : N;                     (* next request id *)
  x_pts : bool                   (* the actor has subscriptions *)
}.
Definition w_st (s : astore) (v : astate) : astore := AStore v (x_ireq s) (x_sreq s) (x_i s) (x_d s) (x_s s) (x_sub s) (x_conf s) (x_prog s) (x_cl s) (x_sv s) (x_uq s) (x_lking s) (x_lked s) (x_rm s) (x_dm s) (x_al s) (x_res s) (x_trk s) (x_pend s) (x_late s) (x_next s) (x_pts s).
Definition w_ireq (s : astore) (v : bool) : astore := AStore (x_st s) v (x_sreq s) (x_i s) (x_d s) (x_s s) (x_sub s) (x_conf s) (x_prog s) (x_cl s) (x_sv s) (x_uq s) (x_lking s) (x_lked s) (x_rm s) (x_dm s) (x_al s) (x_res s) (x_trk s) (x_pend s) (x_late s) (x_next s) (x_pts s).
Definition w_sreq (s : astore) (v : bool) : astore := AStore (x_st s) (x_ireq s) v (x_i s) (x_d s) (x_s s) (x_sub s) (x_conf s) (x_prog s) (x_cl s) (x_sv s) (x_uq s) (x_lking s) (x_lked s) (x_rm s) (x_dm s) (x_al s) (x_res s) (x_trk s) (x_pend s) (x_late s) (x_next s) (x_pts s).
Definition w_i (s : astore) (v : plug -> bool) : astore := AStore (x_st s) (x_ireq s) (x_sreq s) v (x_d s) (x_s s) (x_sub s) (x_conf s) (x_prog s) (x_cl s) (x_sv s) (x_uq s) (x_lking s) (x_lked s) (x_rm s) (x_dm s) (x_al s) (x_res s) (x_trk s) (x_pend s) (x_late s) (x_next s) (x_pts s).
Definition w_d (s : astore) (v : plug -> bool) : astore := AStore (x_st s) (x_ireq s) (x_sreq s) (x_i s) v (x_s s) (x_sub s) (x_conf s) (x_prog s) (x_cl s) (x_sv s) (x_uq s) (x_lking s) (x_lked s) (x_rm s) (x_dm s) (x_al s) (x_res s) (x_trk s) (x_pend s) (x_late s) (x_next s) (x_pts s).
Definition w_s (s : astore) (v : bool) : astore := AStore (x_st s) (x_ireq s) (x_sreq s) (x_i s) (x_d s) v (x_sub s) (x_conf s) (x_prog s) (x_cl s) (x_sv s) (x_uq s) (x_lking s) (x_lked s) (x_rm s) (x_dm s) (x_al s) (x_res s) (x_trk s) (x_pend s) (x_late s) (x_next s) (x_pts s).
Definition w_sub (s : astore) (v : bool) : astore := AStore (x_st s) (x_ireq s) (x_sreq s) (x_i s) (x_d s) (x_s s) v (x_conf s) (x_prog s) (x_cl s) (x_sv s) (x_uq s) (x_lking s) (x_lked s) (x_rm s) (x_dm s) (x_al s) (x_res s) (x_trk s) (x_pend s) (x_late s) (x_next s) (x_pts s).
Definition w_conf (s : astore) (v : plug -> bool) : astore := AStore (x_st s) (x_ireq s) (x_sreq s) (x_i s) (x_d s) (x_s s) (x_sub s) v (x_prog s) (x_cl s) (x_sv s) (x_uq s) (x_lking s) (x_lked s) (x_rm s) (x_dm s) (x_al s) (x_res s) (x_trk s) (x_pend s) (x_late s) (x_next s) (x_pts s).
Definition w_prog (s : astore) (v : bool) : astore := AStore (x_st s) (x_ireq s) (x_sreq s) (x_i s) (x_d s) (x_s s) (x_sub s) (x_conf s) v (x_cl s) (x_sv s) (x_uq s) (x_lking s) (x_lked s) (x_rm s) (x_dm s) (x_al s) (x_res s) (x_trk s) (x_pend s) (x_late s) (x_next s) (x_pts s).
Definition w_cl (s : astore) (v : gmap N cstate) : astore := AStore (x_st s) (x_ireq s) (x_sreq s) (x_i s) (x_d s) (x_s s) (x_sub s) (x_conf s) (x_prog s) v (x_sv s) (x_uq s) (x_lking s) (x_lked s) (x_rm s) (x_dm s) (x_al s) (x_res s) (x_trk s) (x_pend s) (x_late s) (x_next s) (x_pts s).
Definition w_sv (s : astore) (v : gmap N srec) : astore := AStore (x_st s) (x_ireq s) (x_sreq s) (x_i s) (x_d s) (x_s s) (x_sub s) (x_conf s) (x_prog s) (x_cl s) v (x_uq s) (x_lking s) (x_lked s) (x_rm s) (x_dm s) (x_al s) (x_res s) (x_trk s) (x_pend s) (x_late s) (x_next s) (x_pts s).
Definition w_uq (s : astore) (v : list N) : astore := AStore (x_st s) (x_ireq s) (x_sreq s) (x_i s) (x_d s) (x_s s) (x_sub s) (x_conf s) (x_prog s) (x_cl s) (x_sv s) v (x_lking s) (x_lked s) (x_rm s) (x_dm s) (x_al s) (x_res s) (x_trk s) (x_pend s) (x_late s) (x_next s) (x_pts s).
Definition w_lking (s : astore) (v : bool) : astore := AStore (x_st s) (x_ireq s) (x_sreq s) (x_i s) (x_d s) (x_s s) (x_sub s) (x_conf s) (x_prog s) (x_cl s) (x_sv s) (x_uq s) v (x_lked s) (x_rm s) (x_dm s) (x_al s) (x_res s) (x_trk s) (x_pend s) (x_late s) (x_next s) (x_pts s).
Definition w_lked (s : astore) (v : bool) : astore := AStore (x_st s) (x_ireq s) (x_sreq s) (x_i s) (x_d s) (x_s s) (x_sub s) (x_conf s) (x_prog s) (x_cl s) (x_sv s) (x_uq s) (x_lking s) v (x_rm s) (x_dm s) (x_al s) (x_res s) (x_trk s) (x_pend s) (x_late s) (x_next s) (x_pts s).
Definition w_rm (s : astore) (v : gmap N rstate) : astore := AStore (x_st s) (x_ireq s) (x_sreq s) (x_i s) (x_d s) (x_s s) (x_sub s) (x_conf s) (x_prog s) (x_cl s) (x_sv s) (x_uq s) (x_lking s) (x_lked s) v (x_dm s) (x_al s) (x_res s) (x_trk s) (x_pend s) (x_late s) (x_next s) (x_pts s).
Definition w_dm (s : astore) (v : gmap N task) : astore := AStore (x_st s) (x_ireq s) (x_sreq s) (x_i s) (x_d s) (x_s s) (x_sub s) (x_conf s) (x_prog s) (x_cl s) (x_sv s) (x_uq s) (x_lking s) (x_lked s) (x_rm s) v (x_al s) (x_res s) (x_trk s) (x_pend s) (x_late s) (x_next s) (x_pts s).
Definition w_al (s : astore) (v : gmap N (list N)) : astore := AStore (x_st s) (x_ireq s) (x_sreq s) (x_i s) (x_d s) (x_s s) (x_sub s) (x_conf s) (x_prog s) (x_cl s) (x_sv s) (x_uq s) (x_lking s) (x_lked s) (x_rm s) (x_dm s) v (x_res s) (x_trk s) (x_pend s) (x_late s) (x_next s) (x_pts s).
Definition w_res (s : astore) (v : gmap N N) : astore := AStore (x_st s) (x_ireq s) (x_sreq s) (x_i s) (x_d s) (x_s s) (x_sub s) (x_conf s) (x_prog s) (x_cl s) (x_sv s) (x_uq s) (x_lking s) (x_lked s) (x_rm s) (x_dm s) (x_al s) v (x_trk s) (x_pend s) (x_late s) (x_next s) (x_pts s).
Definition w_trk (s : astore) (v : nat) : astore := AStore (x_st s) (x_ireq s) (x_sreq s) (x_i s) (x_d s) (x_s s) (x_sub s) (x_conf s) (x_prog s) (x_cl s) (x_sv s) (x_uq s) (x_lking s) (x_lked s) (x_rm s) (x_dm s) (x_al s) (x_res s) v (x_pend s) (x_late s) (x_next s) (x_pts s).
Definition w_pend (s : astore) (v : gmap N query) : astore := AStore (x_st s) (x_ireq s) (x_sreq s) (x_i s) (x_d s) (x_s s) (x_sub s) (x_conf s) (x_prog s) (x_cl s) (x_sv s) (x_uq s) (x_lking s) (x_lked s) (x_rm s) (x_dm s) (x_al s) (x_res s) (x_trk s) v (x_late s) (x_next s) (x_pts s).
Definition w_late (s : astore) (v : list query) : astore := AStore (x_st s) (x_ireq s) (x_sreq s) (x_i s) (x_d s) (x_s s) (x_sub s) (x_conf s) (x_prog s) (x_cl s) (x_sv s) (x_uq s) (x_lking s) (x_lked s) (x_rm s) (x_dm s) (x_al s) (x_res s) (x_trk s) (x_pend s) v (x_next s) (x_pts s).
Definition w_next (s : astore) (v : N) : astore := AStore (x_st s) (x_ireq s) (x_sreq s) (x_i s) (x_d s) (x_s s) (x_sub s) (x_conf s) (x_prog s) (x_cl s) (x_sv s) (x_uq s) (x_lking s) (x_lked s) (x_rm s) (x_dm s) (x_al s) (x_res s) (x_trk s) (x_pend s) (x_late s) v (x_pts s).
Definition w_pts (s : astore) (v : bool) : astore := AStore (x_st s) (x_ireq s) (x_sreq s) (x_i s) (x_d s) (x_s s) (x_sub s) (x_conf s) (x_prog s) (x_cl s) (x_sv s) (x_uq s) (x_lking s) (x_lked s) (x_rm s) (x_dm s) (x_al s) (x_res s) (x_trk s) (x_pend s) (x_late s) (x_next s) v.

(** Answers to a link request. *)
Inductive lans := LOk | LNotLinkable | LAlready.
Inductive aev :=
(* what the actor does *)
| EvLink (a : N) (oponly : bool) (id : N)
| EvReg (n id : N) | EvDisc (n id : N) | EvPromise (n id : N)
| EvDereg (n : N) | EvCancel (n : N)
| EvNotify (a : N)                        (* unlink_notify to a server *)
| EvUnlinkReq (c id : N)                  (* unlink request to a client *)
| EvUnlinkReply (a : N)                   (* positive answer to the unlink request of a server *)
| EvLinkAns (c r : N) (x : lans)
| EvInitOk | EvInitErr (p : plug) | EvShutOk | EvShutErr   (* answers to the init and shutdown requests *)
| EvState (o n : astate)
| EvDoShutdown                            (* do_shutdown because of unlinking *)
| EvInitVote (p : plug) (b : bool) | EvShutVote (p : plug) (b : bool)
| EvAcquire (i : N) | EvRelease (i : N)
| EvRegister (n : N) | EvDiscover (n : N)
(* what it receives *)
| EvInitReq
| EvLinkReq (c r : N) (oponly : bool)
| EvGotNotify (c : N)
| EvUnlinkOk (c : N)
| EvLinkResp (a : N) (ok : bool)
| EvRegResp (n : N) (ok : bool)
| EvDiscResp (n : N) (a : option N).
Global Instance lans_eq_dec : EqDecision lans.
Proof. solve_decision. Defined.
Global Instance aev_eq_dec : EqDecision aev.
Proof. solve_decision. Defined.

(** What user code can ask for. *)
Inductive uact :=
| ULink (a : N) (oponly : bool)
| URegister (n : N)
| UDiscover (n : N) (delayed oponly : bool)
| UAcquire (i : N) | URelease (i : N)
| UTrack.                                 (* subscribe, tracked by the starter *)
(** Payload of a response. *)
Inductive reply := RpOk | RpErr | RpAddr (a : N).

Inductive aop :=
| OInitReq                                (* init request *)
| OUser (u : uact)                        (* a message handler of the user does [u] *)
| OResp (id : N) (r : reply)              (* the peer answers request [id] *)
| OTimeout (id : N)
| OLate                                   (* the oldest timeout response is delivered *)
| OLinkReq (c r : N) (oponly : bool)
| OUnlinkNotify (c : N)
| OUnlinkReq (a : N)                      (* unlink request of a server *)
| OSubscribed                             (* confirmation of a tracked subscription *)
| OStart
| OShutReq
| OUnsubscribed.                          (* the last subscription is gone *)

Notation P := (prog astore aev).
Definition updp (f : plug -> bool) (p : plug) (b : bool) : plug -> bool := fun q => if decide (q = p) then b else f q.

Section model.
(** The user code of configure(), per plugin; the address of the registry; the
    result of the virtual on_unlink. *)
Context (cfg : plug -> list uact) (reg_addr : N) (unlink_result : bool).

Definition reaction_init (p : plug) (b : bool) : P unit := modify (fun s => w_i s (updp (x_i s) p b)).
Definition reaction_down (p : plug) (b : bool) : P unit := modify (fun s => w_d s (updp (x_d s) p b)).
Definition set_state (n : astate) : P unit := s <- get ;; modify (fun s => w_st s n) ;; emit (EvState (x_st s) n).

(** request_builder_t::send, supervisor.h:531-541 *)
Definition request (q : query) : P N :=
  s <- get ;; modify (fun s => w_next (w_pend s (<[x_next s := q]> (x_pend s))) (x_next s + 1)) ;; ret (x_next s).
(** supervisor.cpp:140-144 *)
Definition discard_request (id : N) : P unit :=
  s <- get ;; check (bool_decide (is_Some (x_pend s !! id))) ;; modify (fun s => w_pend s (delete id (x_pend s))).

(** link_client.cpp:50-57 *)
Definition link (a : N) (oponly : bool) (cb : lcb) : P unit :=
  s <- get ;;
  check (bool_decide (x_sv s !! a = None)) ;;
  reaction_init PLc true ;;
  id <- request (QLink a) ;;
  emit (EvLink a oponly id) ;;
  modify (fun s => w_sv s (<[a := SRec cb (SLinking id)]> (x_sv s))).

(** registry.cpp:118-127 *)
Definition link_registry : P unit := modify (fun s => w_lking s true) ;; link reg_addr false CbRegistry.
(** registry.cpp:58-68 *)
Definition register_name (n : N) : P unit :=
  s <- get ;;
  check (bool_decide (x_rm s !! n = None)) ;;
  check (negb (x_lked s)) ;;
  when (negb (x_lking s)) link_registry ;;
  emit (EvRegister n) ;;
  modify (fun s => w_rm s (<[n := RRegistering]> (x_rm s))).
(** registry.cpp:70-81 *)
Definition discover_name (n : N) (delayed oponly : bool) : P unit :=
  s <- get ;;
  check (bool_decide (x_dm s !! n = None)) ;;
  check (negb (x_lked s)) ;;
  when (negb (x_lking s)) link_registry ;;
  emit (EvDiscover n) ;;
  modify (fun s => w_dm s (<[n := Task delayed oponly TPassive None]> (x_dm s))).

(** resources.cpp:92-95; a sum of counters is positive iff one of them is. *)
Definition has_any (s : astore) : bool := bool_decide (map_Exists (fun _ v => v <> 0) (x_res s)).
Definition held (s : astore) (i : N) : N := default 0 (x_res s !! i).
(** resources.cpp:54-65 *)
Definition acquire (i : N) : P unit :=
  s <- get ;;
  modify (fun s => w_res s (<[i := held s i + 1]> (x_res s))) ;;
  emit (EvAcquire i) ;;
  (if bool_decide (x_st s = AInitializing) then reaction_init PRs true
   else when (rank AOperational <=? rank (x_st s)) (reaction_down PRs true)).
(** resources.cpp:67-84 up to the calls of init_continue and shutdown_continue;
    the result tells that one is due. *)
Definition release (i : N) : P bool :=
  s <- get ;;
  check (0 <? held s i) ;;
  modify (fun s => w_res s (<[i := held s i - 1]> (x_res s))) ;;
  emit (EvRelease i) ;;
  s1 <- get ;;
  ret (negb (has_any s1) && negb (x_prog s1)).

Definition act (u : uact) : P bool :=
  match u with
  | ULink a oponly => link a oponly CbNone ;; ret false
  | URegister n => register_name n ;; ret false
  | UDiscover n d o => discover_name n d o ;; ret false
  | UAcquire i => acquire i ;; ret false
  | URelease i => release i
  | UTrack => modify (fun s => w_trk s (S (x_trk s))) ;; ret false
  end.
(** actor->configure(plugin), inside of the init loop *)
Definition configure (p : plug) : P unit := each (cfg p) (fun u => act u ;; skip).
Definition configure_once (p : plug) : P unit :=
  s <- get ;;
  when (negb (x_conf s p)) (modify (fun s => w_conf s (updp (x_conf s) p true)) ;; configure p).

(** registry.cpp:183-186 *)
Definition has_registering (s : astore) : bool := bool_decide (map_Exists (fun _ v => v = RRegistering) (x_rm s)).
Definition is_linking (x : srec) : bool := match sr_st x with SLinking _ => true | SOperational => false end.
Definition has_linking (s : astore) : bool := bool_decide (map_Exists (fun _ v => is_linking v = true) (x_sv s)).
(** link_client.cpp:135-143, registry.cpp:146-152, resources.cpp:42-48,
    starter.cpp:55-65 *)
Definition handle_init (p : plug) : P bool :=
  match p with
  | PLc => configure_once PLc ;; s <- get ;; ret (negb (has_linking s))
  | PRg => configure_once PRg ;; s <- get ;; ret (bool_decide (x_dm s = ∅) && negb (has_registering s))
  | PRs => configure_once PRs ;; s <- get ;; ret (negb (has_any s))
  | PSt =>
      s <- get ;;
      when (negb (x_conf s PSt)) (
        configure_once PSt ;; s <- get ;;
        when (bool_decide (x_trk s = 0%nat)) (reaction_init PSt false ;; modify (fun s => w_sub s false))) ;;
      s <- get ;; ret (bool_decide (x_trk s = 0%nat))
  | _ => ret true
  end.

(** actor_base.cpp:97-101 *)
Definition init_finish : P unit := emit EvInitOk ;; modify (fun s => w_ireq s false) ;; set_state AInitialized.
(** actor_base.cpp:151-167 *)
Fixpoint init_loop (l : list plug) : P unit :=
  match l with
  | [] => modify (fun s => w_prog s false) ;; init_finish
  | p :: r =>
      s <- get ;;
      if x_i s p then
        b <- handle_init p ;;
        emit (EvInitVote p b) ;;
        if b : bool then reaction_init p false ;; init_loop r else modify (fun s => w_prog s false)
      else init_loop r
  end.
Definition init_order : list plug := [PLc; PRg; PRs; PSt].
(** actor_base.cpp:147-168 *)
Definition init_continue : P unit :=
  s <- get ;;
  check (bool_decide (x_st s = AInitializing)) ;;
  check (x_ireq s) ;;
  modify (fun s => w_prog s true) ;;
  init_loop init_order.

(** link_server.cpp:123-133 *)
Definition notify_client (c : N) (x : cstate) : P unit :=
  match x with
  | COperational =>
      id <- request (QUnlink c) ;; emit (EvUnlinkReq c id) ;;
      modify (fun s => w_cl s (<[c := CUnlinking id]> (x_cl s)))
  | _ => skip
  end.
Definition notify_shutdown : P unit :=
  s <- get ;; each (map_to_list (x_cl s)) (fun '(c, x) => notify_client c x).

(** link_client.cpp:102-113: the part before the decision about the shutdown *)
Definition forget_one (a : N) : P bool :=
  s <- get ;;
  match x_sv s !! a with
  | Some _ => emit (EvUnlinkReply a) ;; modify (fun s => w_sv s (delete a (x_sv s))) ;; ret unlink_result
  | None => ret false
  end.
Fixpoint forget_all (l : list N) : P bool :=
  match l with
  | [] => ret false
  | a :: r => b <- forget_one a ;; b' <- forget_all r ;; ret (b || b')
  end.
Definition forget_links : P bool :=
  s <- get ;; if bool_decide (x_cl s = ∅) then forget_all (x_uq s) else ret false.

(** link_client.cpp:145-171 *)
Definition leave_server (a : N) (x : srec) : P unit :=
  emit (EvNotify a) ;;
  match sr_st x with SLinking id => discard_request id | SOperational => skip end ;;
  modify (fun s => w_sv s (delete a (x_sv s))).
Definition client_shutdown : P bool :=
  s <- get ;;
  if bool_decide (x_sv s = ∅) then ret true
  else
    forget_links ;;
    s <- get ;;
    (if bool_decide (x_cl s = ∅) then each (map_to_list (x_sv s)) (fun '(a, x) => leave_server a x)
     else notify_shutdown) ;;
    s <- get ;; ret (bool_decide (x_sv s = ∅)).

(** registry.cpp:272-282 *)
Definition cancel_task (n : N) (t : task) : P unit :=
  if t_delayed t && bool_decide (t_st t = TDiscovering) then
    emit (EvCancel n) ;; modify (fun s => w_dm s (<[n := Task (t_delayed t) (t_oponly t) TCancelling (t_addr t)]> (x_dm s)))
  else modify (fun s => w_dm s (delete n (x_dm s))).
(** registry.cpp:154-181 *)
Definition registry_shutdown : P bool :=
  s <- get ;;
  each (map_to_list (x_rm s)) (fun '(n, x) => when (bool_decide (x = ROperational)) (emit (EvDereg n))) ;;
  modify (fun s => w_rm s ∅) ;;
  s <- get ;;
  each (map_to_list (x_dm s)) (fun '(n, t) => cancel_task n t) ;;
  s <- get ;;
  if bool_decide (x_dm s = ∅) then modify (fun s => w_al s ∅) ;; ret true else ret false.

(** resources.cpp:50-52, registry.cpp:154-181, link_client.cpp:145-171,
    link_server.cpp:108-111, lifetime.cpp:50-55 *)
Definition handle_shutdown (p : plug) : P bool :=
  match p with
  | PRs => s <- get ;; ret (negb (has_any s))
  | PRg => registry_shutdown
  | PLc => client_shutdown
  | PLs => notify_shutdown ;; s <- get ;; ret (bool_decide (x_cl s = ∅))
  | PLife => s <- get ;; ret (negb (x_pts s))
  | PSt => ret true
  end.
(** actor_base.cpp:121-145; all requests are cancelled *)
Definition shutdown_finish : P unit :=
  s <- get ;; when (x_sreq s) (emit EvShutOk) ;;
  modify (fun s => w_pend (w_sreq s false) ∅) ;; set_state AShutDown.
(** actor_base.cpp:175-192 *)
Fixpoint shutdown_loop (l : list plug) : P unit :=
  match l with
  | [] => shutdown_finish
  | p :: r =>
      s <- get ;;
      if x_d s p then
        b <- handle_shutdown p ;;
        emit (EvShutVote p b) ;;
        if b : bool then reaction_down p false ;; shutdown_loop r else skip
      else shutdown_loop r
  end.
Definition shutdown_order : list plug := [PRs; PRg; PLc; PLs; PLife].
(** actor_base.cpp:172-193 *)
Definition shutdown_continue : P unit :=
  s <- get ;; check (bool_decide (x_st s = AShuttingDown)) ;; shutdown_loop shutdown_order.

(** The end of release(). *)
Definition resume : P unit :=
  s <- get ;;
  match x_st s with
  | AInitializing => init_continue
  | AShuttingDown => shutdown_continue
  | _ => skip
  end.
Definition user (u : uact) : P unit := b <- act u ;; when b resume.

(** registry.cpp:107-116 *)
Definition continue_init (ok : bool) : P unit :=
  s <- get ;; check (x_ireq s) ;; if ok then init_continue else emit (EvInitErr PRg).
(** registry.cpp:83-97 *)
Definition on_registration (n : N) (ok : bool) : P unit :=
  emit (EvRegResp n ok) ;;
  s <- get ;;
  check (bool_decide (is_Some (x_rm s !! n))) ;;
  modify (fun s => w_rm s (if ok then <[n := ROperational]> (x_rm s) else delete n (x_rm s))) ;;
  s <- get ;;
  when (negb (has_registering s) || negb ok) (continue_init ok).

(** registry.cpp:234-258 *)
Definition post_discovery (n : N) (ok : bool) : P unit :=
  s <- get ;;
  match x_dm s !! n with
  | None => check false
  | Some t =>
      match t_addr t ≫= (x_al s !!.) with
      | Some names => each names (fun m => modify (fun s => w_dm s (delete m (x_dm s))))
      | None => modify (fun s => w_dm s (delete n (x_dm s)))
      end ;;
      s <- get ;;
      when (bool_decide (x_dm s = ∅) || negb ok)
        (if bool_decide (x_st s = AInitializing) then continue_init ok else shutdown_continue)
  end.
(** registry.cpp:188-232 *)
Definition on_discovery (n : N) (res : option N) : P unit :=
  emit (EvDiscResp n res) ;;
  s <- get ;;
  match x_dm s !! n with
  | None => check false
  | Some t =>
      match res with
      | Some a =>
          modify (fun s => w_dm s (<[n := Task (t_delayed t) (t_oponly t) (t_st t) (Some a)]> (x_dm s))) ;;
          if bool_decide (x_st s = AInitializing) then
            match x_al s !! a with
            | None => link a (t_oponly t) (CbTask n) ;; modify (fun s => w_al s (<[a := [n]]> (x_al s)))
            | Some l => modify (fun s => w_al s (<[a := l ++ [n]]> (x_al s)))
            end
          else post_discovery n true
      | None => post_discovery n false
      end
  end.

(** registry.cpp:129-144, 260-270 *)
Definition do_discover (n : N) (t : task) : P unit :=
  modify (fun s => w_dm s (<[n := Task (t_delayed t) (t_oponly t) TDiscovering (t_addr t)]> (x_dm s))) ;;
  id <- request (QDisc n) ;;
  emit (if t_delayed t then EvPromise n id else EvDisc n id).
Definition on_link (ok : bool) : P unit :=
  modify (fun s => w_lking (w_lked s true) false) ;;
  when ok (
    s <- get ;;
    each (map_to_list (x_rm s)) (fun '(n, _) => id <- request (QReg n) ;; emit (EvReg n id)) ;;
    s <- get ;;
    each (map_to_list (x_dm s)) (fun '(n, t) => do_discover n t)).
(** registry.cpp:214-223: the callback of a link made for a discovered name; the
    task it belongs to may be gone. *)
Definition on_task_link (n : N) (ok : bool) : P unit :=
  s <- get ;;
  match x_dm s !! n with
  | None => crash
  | Some t =>
      match t_addr t ≫= (x_al s !!.) with
      | None => crash
      | Some names =>
          (if bool_decide (Forall (fun m => is_Some (x_dm s !! m)) names) then skip else crash) ;;
          post_discovery n ok
      end
  end.
Definition call_back (cb : lcb) (ok : bool) : P unit :=
  match cb with CbNone => skip | CbRegistry => on_link ok | CbTask n => on_task_link n ok end.
(** link_client.cpp:59-90; the iterator is used after the callback *)
Definition on_link_response (a : N) (ok : bool) : P unit :=
  s <- get ;;
  match x_sv s !! a with
  | None => check false
  | Some x =>
      when (negb ok) (emit (EvLinkResp a false) ;; modify (fun s => w_sv s (delete a (x_sv s)))) ;;
      call_back (sr_cb x) ok ;;
      s <- get ;;
      if ok then
        (if bool_decide (is_Some (x_sv s !! a)) then skip else crash) ;;
        emit (EvLinkResp a true) ;; modify (fun s => w_sv s (<[a := SRec (sr_cb x) SOperational]> (x_sv s))) ;;
        when (x_ireq s) init_continue
      else when (x_ireq s) (emit (EvInitErr PLc) ;; modify (fun s => w_ireq s false))
  end.
(** link_client.cpp:92-126 *)
Definition forget_link (a : N) : P unit :=
  s <- get ;;
  match x_sv s !! a with
  | None => skip
  | Some _ =>
      modify (fun s => w_uq s (x_uq s ++ [a])) ;;
      b <- forget_links ;;
      s <- get ;;
      when b (if bool_decide (x_st s = AShuttingDown) then shutdown_continue else emit EvDoShutdown)
  end.

(** link_server.cpp:41-64 *)
Definition on_link_request (c r : N) (oponly : bool) : P unit :=
  emit (EvLinkReq c r oponly) ;;
  s <- get ;;
  if rank AOperational <? rank (x_st s) then emit (EvLinkAns c r LNotLinkable)
  else if bool_decide (is_Some (x_cl s !! c)) then emit (EvLinkAns c r LAlready)
  else if oponly && (rank (x_st s) <? rank AOperational) then
    modify (fun s => w_s (w_cl s (<[c := CPending r]> (x_cl s))) true)
  else
    modify (fun s => w_cl s (<[c := COperational]> (x_cl s))) ;; emit (EvLinkAns c r LOk).
Definition down_resume : P unit :=
  s <- get ;; when (bool_decide (x_st s = AShuttingDown)) shutdown_continue.
(** link_server.cpp:66-82; actor_base.cpp:257-260 asserts that the timer exists *)
Definition on_unlink_notify (c : N) : P unit :=
  emit (EvGotNotify c) ;;
  s <- get ;;
  match x_cl s !! c with
  | None => skip
  | Some x =>
      match x with
      | CUnlinking id => discard_request id
      | _ => skip
      end ;;
      modify (fun s => w_cl s (delete c (x_cl s))) ;;
      down_resume
  end.
(** link_server.cpp:84-106; an error response has no client address *)
Definition on_unlink_response (c : N) (ok : bool) : P unit :=
  s <- get ;;
  if negb ok && x_sreq s then emit EvShutErr
  else
    check ok ;;
    check (bool_decide (is_Some (x_cl s !! c))) ;;
    emit (EvUnlinkOk c) ;;
    modify (fun s => w_cl s (delete c (x_cl s))) ;;
    down_resume.
(** link_server.cpp:113-121 *)
Definition answer_pending (c : N) (x : cstate) : P unit :=
  match x with
  | CPending r => emit (EvLinkAns c r LOk) ;; modify (fun s => w_cl s (<[c := COperational]> (x_cl s)))
  | _ => skip
  end.

(** A response to a request of the actor reaches the plugin. *)
Definition respond (q : query) (r : reply) : P unit :=
  match q with
  | QLink a => on_link_response a (match r with RpErr => false | _ => true end)
  | QReg n => on_registration n (match r with RpErr => false | _ => true end)
  | QDisc n => on_discovery n (match r with RpAddr a => Some a | _ => None end)
  | QUnlink c => on_unlink_response c (match r with RpErr => false | _ => true end)
  end.

Definition astep_live (o : aop) : P unit :=
  match o with
  | OInitReq =>
      (* init_shutdown.cpp:45-52 *)
      emit EvInitReq ;; modify (fun s => w_ireq s true) ;;
      s <- get ;; when (bool_decide (x_st s = AInitializing)) init_continue
  | OUser u => user u
  | OResp id r =>
      s <- get ;;
      match x_pend s !! id with
      | Some q => modify (fun s => w_pend s (delete id (x_pend s))) ;; respond q r
      | None => skip
      end
  | OTimeout id =>
      s <- get ;;
      match x_pend s !! id with
      | Some q => modify (fun s => w_late (w_pend s (delete id (x_pend s))) (x_late s ++ [q]))
      | None => skip
      end
  | OLate =>
      s <- get ;;
      match x_late s with
      | q :: l => modify (fun s => w_late s l) ;; respond q RpErr
      | [] => skip
      end
  | OLinkReq c r oponly => on_link_request c r oponly
  | OUnlinkNotify c => on_unlink_notify c
  | OUnlinkReq a => forget_link a
  | OSubscribed =>
      (* starter.cpp:42-53 *)
      modify (fun s => w_trk s (pred (x_trk s))) ;;
      s <- get ;;
      when (x_sub s && x_conf s PSt && bool_decide (x_trk s = 0%nat) && bool_decide (x_st s = AInitializing))
        (modify (fun s => w_sub s false) ;; init_continue)
  | OStart =>
      (* starter.cpp:67-86 *)
      s <- get ;;
      when (bool_decide (x_st s = AInitialized)) (
        set_state AOperational ;;
        when (x_s s) (each (map_to_list (x_cl s)) (fun '(c, x) => answer_pending c x) ;; modify (fun s => w_s s false)))
  | OShutReq =>
      (* init_shutdown.cpp:54-64 *)
      s <- get ;;
      when (rank (x_st s) <? rank AShuttingDown) (
        modify (fun s => w_sreq s true) ;; set_state AShuttingDown ;; shutdown_continue)
  | OUnsubscribed => modify (fun s => w_pts s false) ;; down_resume
  end.
Definition aprog (o : aop) : P unit :=
  s <- get ;; if bool_decide (x_st s = AShutDown) then skip else astep_live o.
Definition astep (s : astore) (o : aop) : res (astore * list aev) := to_step (aprog o) s.

(** After do_initialize: the plugins are active. *)
Definition ainit : astore :=
  AStore AInitializing false false (fun p => bool_decide (p ∈ [PLc; PRg; PRs; PSt])) (fun p => bool_decide (p ∈ [PRs; PRg; PLc; PLs; PLife]))
    false true (fun _ => false) false ∅ ∅ [] false false ∅ ∅ ∅ ∅ 0%nat ∅ [] 1 true.
End model.
