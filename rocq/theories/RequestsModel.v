(** Model of requests, their timeouts, user timers and the reply-address
    mapping inside one locality (any number of supervisors and actors).

    Code: include/rotor/supervisor.h (next_request_id 336-344, start_timer
    378-392, request_builder_t 511-565), src/rotor/supervisor.cpp
    (on_request_trigger 121-138, discard_request 140-144, shutdown_finish
    146-149), src/rotor/actor_base.cpp (shutdown_finish 121-145, cancel_timer
    257-260, on_timer_trigger 262-268), src/rotor/address_mapping.cpp 13-45.

    Supervisors and actors share one set of identities; [asup a] is the
    supervisor of actor [a] ([asup s = s] for a supervisor).  All data which
    the code keeps per object ([timers_map], [active_requests], [request_map])
    is kept here in one map keyed by (object, request id).

    Simplifications: which request is replied to, when the response reaches the
    supervisor and when an armed timer fires is the environment's choice, every
    number of times and in every order; deadlines are in TimersModel.v; the user
    code run by a timer callback is represented by the operations that follow.
    [timers_map.erase(it)] after a callback that started another timer relies on
    the iterator surviving a rehash; that is taken for granted. *)
From stdpp Require Import base list gmap.
From Verif Require Import Base.

Definition W64 : N := 18446744073709551616.

(** [request_curry_t]: origin (reply_to), the request, the source actor. *)
Record curry := Curry { q_origin : N; q_uid : N; q_source : N }.
(** A request builder which was not sent yet. *)
Record builder := Builder { b_actor : N; b_origin : N; b_type : N; b_imag : N; b_install : bool }.
(** The request message as the responder sees it: it can be replied to at any
    time. *)
Record rmsg := RMsg { rm_id : N; rm_sup : N; rm_imag : N; rm_origin : N; rm_source : N; rm_type : N }.

Inductive tkind := TUser | TReq.
Global Instance tkind_eq_dec : EqDecision tkind.
Proof. solve_decision. Defined.

Record rstate := RState {
  r_last : N;                            (* last_req_id of the leader *)
  r_map : gmap (N * N) curry;            (* (supervisor, id): request_map *)
  r_active : gset (N * N);               (* (actor, id): active_requests *)
  r_timers : gmap (N * N) tkind;         (* (owner, id): timers_map *)
  r_armed : list (N * N);                (* (id, owner): timers of the event loop *)
  r_built : gmap N builder;              (* by request id *)
  r_sent : gmap N rmsg;                  (* by request number *)
  r_amap : gmap (N * N) N;               (* (actor, response type): imaginary address *)
  r_subs : gset N;                       (* imaginary addresses with a response handler *)
  r_naddr : N;
  r_uid : N;
  r_fin : gset N                         (* actors which finished shutdown *)
}.

Definition rinit : rstate := RState 0 ∅ ∅ ∅ [] ∅ ∅ ∅ ∅ 0 0 ∅.

Inductive revent :=
| EReq (uid : N)                                      (* the request is sent to its destination *)
| EResp (uid replied : N) (origin source : N)         (* response given to the requester *)
| ETimeout (uid : N) (origin source : N)              (* timeout error given to the requester *)
| ECancel (uid : N)                                   (* the request timer was cancelled *)
| EUser (owner id : N) (cancelled : bool).            (* user timer callback *)

Inductive rop :=
| OBuild (a origin ty : N)
| OSendReq (id : N)
| OArrive (uid : N)
| OFire (id owner : N)
| OStart (a : N)
| OCancel (a id : N)
| OFinish (a id : N)
| OUnmap (a ty : N).

Section M.
  Variable asup : N -> N.
  Variable leader : N.

  Definition set_map st m := RState (r_last st) m (r_active st) (r_timers st) (r_armed st) (r_built st)
    (r_sent st) (r_amap st) (r_subs st) (r_naddr st) (r_uid st) (r_fin st).
  Definition set_active st x := RState (r_last st) (r_map st) x (r_timers st) (r_armed st) (r_built st)
    (r_sent st) (r_amap st) (r_subs st) (r_naddr st) (r_uid st) (r_fin st).
  Definition set_timers st x := RState (r_last st) (r_map st) (r_active st) x (r_armed st) (r_built st)
    (r_sent st) (r_amap st) (r_subs st) (r_naddr st) (r_uid st) (r_fin st).
  Definition set_armed st x := RState (r_last st) (r_map st) (r_active st) (r_timers st) x (r_built st)
    (r_sent st) (r_amap st) (r_subs st) (r_naddr st) (r_uid st) (r_fin st).
  Definition set_last st x := RState x (r_map st) (r_active st) (r_timers st) (r_armed st) (r_built st)
    (r_sent st) (r_amap st) (r_subs st) (r_naddr st) (r_uid st) (r_fin st).

  (** supervisor.h:336-344; [None]: the loop does not end. *)
  Fixpoint next_id_from (fuel : nat) (m : gmap (N * N) curry) (last : N) : option N :=
    match fuel with
    | O => None
    | S fuel' =>
        let i := N.modulo (last + 1) W64 in
        match m !! (leader, i) with
        | Some _ => next_id_from fuel' m i
        | None => Some i
        end
    end.
  Definition next_id (st : rstate) : option N := next_id_from (S (size (r_map st))) (r_map st) (r_last st).

  (** supervisor.cpp:121-138, executed in supervisor [s]. *)
  Definition on_request_trigger (st : rstate) (s id : N) (cancelled : bool) : res (rstate * list revent) :=
    match r_map st !! (s, id) with
    | None => Ok (st, [])
    | Some c =>
        let e := if cancelled then [ECancel (q_uid c)] else [ETimeout (q_uid c) (q_origin c) (q_source c)] in
        if decide ((q_source c, id) ∈ r_active st) then
          Ok (set_map (set_active st (r_active st ∖ {[(q_source c, id)]})) (delete (s, id) (r_map st)), e)
        else Crash
    end.

  (** actor_base.cpp:262-268. *)
  Definition on_timer_trigger (st : rstate) (o id : N) (cancelled : bool) : res (rstate * list revent) :=
    match r_timers st !! (o, id) with
    | None => Ok (st, [])
    | Some TUser => Ok (set_timers st (delete (o, id) (r_timers st)), [EUser o id cancelled])
    | Some TReq =>
        rbind (on_request_trigger st o id cancelled) (fun '(st', e) =>
        Ok (set_timers st' (delete (o, id) (r_timers st')), e))
    end.

  Fixpoint find_armed (l : list (N * N)) (id : N) : option N :=
    match l with
    | [] => None
    | (i, o) :: l' => if N.eqb i id then Some o else find_armed l' id
    end.
  Fixpoint erase_armed (l : list (N * N)) (id o : N) : list (N * N) :=
    match l with
    | [] => []
    | (i, p) :: l' => if N.eqb i id && N.eqb p o then l' else (i, p) :: erase_armed l' id o
    end.

  (** The back end: find the timer by its id, call the owner, drop it
      (e.g. thread/system_context_thread.cpp:117-126, asio/supervisor_asio.cpp:69-78). *)
  Definition do_cancel_timer (st : rstate) (id : N) : res (rstate * list revent) :=
    match find_armed (r_armed st) id with
    | None => AssertFail
    | Some o =>
        rbind (on_timer_trigger st o id true) (fun '(st', e) =>
        Ok (set_armed st' (erase_armed (r_armed st') id o), e))
    end.

  (** actor_base.cpp:257-260. *)
  Definition cancel_timer (st : rstate) (a id : N) : res (rstate * list revent) :=
    match r_timers st !! (a, id) with
    | None => AssertFail
    | Some _ => do_cancel_timer st id
    end.

  (** supervisor.h:378-384; a second handler for the same id would be destroyed
      although the event loop refers to it. *)
  Definition start_timer (st : rstate) (o id : N) (k : tkind) : res rstate :=
    match r_timers st !! (o, id) with
    | Some _ => Crash
    | None => Ok (set_timers (set_armed st (r_armed st ++ [(id, o)])) (<[(o, id) := k]> (r_timers st)))
    end.

  (** supervisor.h:511-529. *)
  Definition build (st : rstate) (a origin ty : N) : res (rstate * list revent) :=
    match next_id st with
    | None => Crash
    | Some id =>
        let st1 := set_last st id in
        match r_amap st !! (a, ty) with
        | Some imag =>
            Ok (RState (r_last st1) (r_map st1) (r_active st1) (r_timers st1) (r_armed st1)
                  (<[id := Builder a origin ty imag false]> (r_built st1)) (r_sent st1) (r_amap st1) (r_subs st1)
                  (r_naddr st1) (r_uid st1) (r_fin st1), [])
        | None =>
            Ok (RState (r_last st1) (r_map st1) (r_active st1) (r_timers st1) (r_armed st1)
                  (<[id := Builder a origin ty (r_naddr st1) true]> (r_built st1)) (r_sent st1) (r_amap st1) (r_subs st1)
                  (N.succ (r_naddr st1)) (r_uid st1) (r_fin st1), [])
        end
    end.

  (** address_mapping.cpp:13-17 (try_emplace) and supervisor.h:543-565. *)
  Definition install (st : rstate) (b : builder) : rstate :=
    RState (r_last st) (r_map st) (r_active st) (r_timers st) (r_armed st) (r_built st) (r_sent st)
      (match r_amap st !! (b_actor b, b_type b) with
       | Some _ => r_amap st
       | None => <[(b_actor b, b_type b) := b_imag b]> (r_amap st)
       end) ({[b_imag b]} ∪ r_subs st) (r_naddr st) (r_uid st) (r_fin st).

  (** supervisor.h:531-541. *)
  Definition send (st : rstate) (id : N) : res (rstate * list revent) :=
    match r_built st !! id with
    | None => Ok (st, [])
    | Some b =>
        let s := asup (b_actor b) in
        let st1 := if b_install b then install st b else st in
        let uid := r_uid st1 in
        let m := match r_map st1 !! (s, id) with
                 | Some _ => r_map st1
                 | None => <[(s, id) := Curry (b_origin b) uid (b_actor b)]> (r_map st1)
                 end in
        let st2 := RState (r_last st1) m (r_active st1) (r_timers st1) (r_armed st1) (delete id (r_built st1))
                     (<[uid := RMsg id s (b_imag b) (b_origin b) (b_actor b) (b_type b)]> (r_sent st1))
                     (r_amap st1) (r_subs st1) (r_naddr st1) (N.succ uid) (r_fin st1) in
        rbind (start_timer st2 s id TReq) (fun st3 =>
        Ok (set_active st3 ({[(b_actor b, id)]} ∪ r_active st3), [EReq uid]))
    end.

  (** supervisor.cpp:140-144. *)
  Definition discard_request (st : rstate) (s id : N) : res (rstate * list revent) :=
    match r_map st !! (s, id) with
    | None => AssertFail
    | Some _ =>
        rbind (cancel_timer st s id) (fun '(st', e) =>
        Ok (set_map st' (delete (s, id) (r_map st')), e))
    end.

  (** supervisor.h:544-561: a response to request [uid] reaches its imaginary
      address. *)
  Definition arrive (st : rstate) (uid : N) : res (rstate * list revent) :=
    match r_sent st !! uid with
    | None => Ok (st, [])
    | Some rm =>
        if decide (rm_imag rm ∈ r_subs st) then
          match r_map st !! (rm_sup rm, rm_id rm) with
          | None => Ok (st, [])
          | Some c =>
              rbind (discard_request st (rm_sup rm) (rm_id rm)) (fun '(st', e) =>
              Ok (st', EResp (q_uid c) uid (q_origin c) (q_source c) :: e))
          end
        else Ok (st, [])
    end.

  (** The event loop fires an armed timer. *)
  Definition fire (st : rstate) (id o : N) : res (rstate * list revent) :=
    if decide ((id, o) ∈ r_armed st) then
      rbind (on_timer_trigger st o id false) (fun '(st', e) =>
      Ok (set_armed st' (erase_armed (r_armed st') id o), e))
    else Ok (st, []).

  Definition has_timers (st : rstate) (a : N) : bool :=
    existsb (fun '(k, _) => N.eqb k.1 a) (map_to_list (r_timers st)).
  Definition has_active (st : rstate) (a : N) : bool :=
    existsb (fun k => N.eqb k.1 a) (elements (r_active st)).
  Definition has_requests (st : rstate) (a : N) : bool :=
    existsb (fun '(k, _) => N.eqb k.1 a) (map_to_list (r_map st)).

  (** actor_base.cpp:130-135 and supervisor.cpp:146-149, one iteration; [id]: the
      first element of the unordered container. *)
  Definition finish (st : rstate) (a id : N) : res (rstate * list revent) :=
    if has_timers st a then
      match r_timers st !! (a, id) with
      | Some _ => cancel_timer st a id
      | None => Ok (st, [])
      end
    else if has_active st a then
      if decide ((a, id) ∈ r_active st) then do_cancel_timer st id else Ok (st, [])
    else if has_requests st a then AssertFail
    else Ok (RState (r_last st) (r_map st) (r_active st) (r_timers st) (r_armed st) (r_built st) (r_sent st)
               (r_amap st) (r_subs st) (r_naddr st) (r_uid st) ({[a]} ∪ r_fin st), []).

  (** address_mapping.cpp:31-45 for the subscription stored for ([a], [ty]),
      together with the removal of the subscription (child_manager.cpp:347-351,
      424-428). *)
  Definition unmap (st : rstate) (a ty : N) : res (rstate * list revent) :=
    match r_amap st !! (a, ty) with
    | None => Ok (st, [])
    | Some imag =>
        Ok (RState (r_last st) (r_map st) (r_active st) (r_timers st) (r_armed st) (r_built st) (r_sent st)
              (delete (a, ty) (r_amap st)) (r_subs st ∖ {[imag]}) (r_naddr st) (r_uid st) (r_fin st), [])
    end.

  Definition rstep (st : rstate) (o : rop) : res (rstate * list revent) :=
    match o with
    | OBuild a origin ty => build st a origin ty
    | OSendReq id => send st id
    | OArrive uid => arrive st uid
    | OFire id o => fire st id o
    | OStart a =>
        match next_id st with
        | None => Crash
        | Some id => rbind (start_timer (set_last st id) a id TUser) (fun st' => Ok (st', []))
        end
    | OCancel a id => cancel_timer st a id
    | OFinish a id => finish st a id
    | OUnmap a ty => unmap st a ty
    end.
End M.
