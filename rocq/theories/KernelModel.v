(** Model of the messaging core: the queue and the inbound queue of every
    locality, [delivery_plugin_t::process] (include/rotor/supervisor.h:445-469),
    [local_delivery_t::delivery] (src/rotor/plugin/delivery.cpp:39-50), send /
    route / redirect, the response handler of a request with
    [uplift_last_message], and the transfer of inbound messages.

    A locality is a set of supervisors that share one queue; [aloc] gives the
    locality of an address, [hsup] the address of the supervisor of an actor.
    Which message is sent when is up to the environment: handlers are user code,
    so every operation list is allowed, in every interleaving between
    localities.  The dispatch of one message is split into [ODispatch] (take the
    message, forward it to foreign handlers, hand it to own handlers), any number
    of operations issued by the handlers, and [OEnd] (routing).

    Simplifications: a message is a value with a unique number instead of a
    reference counted object; [use_count] is represented by the environment's
    answer [kept] in [OEnd]; which responses are matched by the request map is
    the environment's choice ([OForward] or not), the request map itself is in
    RequestsModel.v; user code does not call do_process recursively. *)
From stdpp Require Import base list gmap.
From Verif Require Import Base SubsModel.

Notation loc := N (only parsing).

(** Who put a message: code running in a locality, a thread outside of rotor,
    the dispatcher of a locality forwarding a call to a foreign handler, or the
    response handler of a locality. *)
Inductive src := SLoc (l : loc) | SExt (n : N) | SCall (l : loc) | SFwd (l : loc).
Global Instance src_eq_dec : EqDecision src.
Proof. solve_decision. Defined.

(** [message_base_t] (include/rotor/message.h): address, next_route, type_index;
    [m_reply]: a response addressed to an imaginary address; [m_root]: the message
    this one was made from (routed, forwarded response, handler call);
    [m_handler]: the handler of a handler_call_t. *)
Record msg := Msg {
  m_uid : N; m_src : src; m_addr : N; m_next : option N; m_type : N;
  m_reply : bool; m_root : option N; m_handler : option handler
}.

(** The message being delivered. *)
Record cur := Cur { c_msg : msg; c_replied : bool; c_redirected : bool }.

Record world := World {
  w_queue : loc -> list msg;
  w_inb : loc -> list msg;
  w_subs : loc -> subs;
  w_cur : loc -> option cur;
  w_uid : N
}.

Inductive kevent :=
| ESent (m : msg)
| EMove (l : loc) (m : msg)                                     (* handed over to the owner locality *)
| EDisp (l : loc) (m : msg) (ext int : list handler)            (* handed to the recipients *)
| EEnd (l : loc) (m : msg) (routed : bool).

Inductive kop :=
| OSend (l : loc) (a : N) (nx : option N) (ty : N) (reply : bool)
| OExt (n : N) (a : N) (ty : N)
| OPump (l : loc)
| ODispatch (l : loc)
| OForward (l : loc) (origin : N)
| ORedirect (l : loc) (a : N) (nx : option N)
| OEnd (l : loc) (kept : bool)
| OSub (l : loc) (o : sop).

Definition upd {A} (f : loc -> A) (l : loc) (v : A) : loc -> A :=
  fun x => if N.eqb x l then v else f x.

Definition kinit : world :=
  World (fun _ => []) (fun _ => []) (fun _ => subs_init) (fun _ => None) 0.

(** supervisor.cpp:164-171: the last message becomes the first. *)
Definition uplift (q : list msg) : option (list msg) :=
  match rev q with
  | [] => None
  | m :: r => Some (m :: rev r)
  end.

Section Net.
  Variable aloc : N -> loc.
  Variable hsup : N -> N.

  Definition addr_in (l : loc) (a : N) : bool := N.eqb (aloc a) l.
  Definition actor_in (l : loc) (a : N) : bool := N.eqb (aloc (hsup a)) l.

  (** supervisor.h:367 / 371, supervisor_t::put: append to the leader's queue. *)
  Definition put (w : world) (l : loc) (m : msg) : world :=
    World (upd (w_queue w) l (w_queue w l ++ [m])) (w_inb w) (w_subs w) (w_cur w) (N.succ (w_uid w)).

  (** supervisor_t::enqueue of the destination. *)
  Definition enqueue (w : world) (m : msg) : world :=
    World (w_queue w) (upd (w_inb w) (aloc (m_addr m)) (w_inb w (aloc (m_addr m)) ++ [m]))
      (w_subs w) (w_cur w) (w_uid w).

  Definition set_queue (w : world) (l : loc) (q : list msg) : world :=
    World (upd (w_queue w) l q) (w_inb w) (w_subs w) (w_cur w) (w_uid w).
  Definition set_cur (w : world) (l : loc) (c : option cur) : world :=
    World (w_queue w) (w_inb w) (w_subs w) (upd (w_cur w) l c) (w_uid w).
  Definition new_uid (w : world) : world :=
    World (w_queue w) (w_inb w) (w_subs w) (w_cur w) (N.succ (w_uid w)).

  (** delivery.cpp:41-46: one handler_call_t per foreign handler, in order. *)
  Fixpoint forward_calls (w : world) (l : loc) (m : msg) (hs : list handler) : world * list kevent :=
    match hs with
    | [] => (w, [])
    | h :: hs' =>
        let c := Msg (w_uid w) (SCall l) (hsup (h_actor h)) None 0 false (Some (m_uid m)) (Some h) in
        let '(w', e) := forward_calls (enqueue (new_uid w) c) l m hs' in
        (w', ESent c :: e)
    end.

  (** supervisor.h:445-469, up to and including delivery. *)
  Definition dispatch (w : world) (l : loc) : res (world * list kevent) :=
    match w_cur w l, w_queue w l with
    | None, m :: q =>
        let w1 := set_queue w l q in
        if addr_in l (m_addr m) then
          let j := joint_at (w_subs w l) (m_addr m, m_type m) in
          let '(w2, e) := forward_calls w1 l m (j_external j) in
          Ok (set_cur w2 l (Some (Cur m false false)), EDisp l m (j_external j) (j_internal j) :: e)
        else Ok (enqueue w1 m, [EMove l m])
    | _, _ => Ok (w, [])
    end.

  (** supervisor.h:459-463: the message goes to its second address if nobody
      keeps it. *)
  Definition end_dispatch (w : world) (l : loc) (kept : bool) : res (world * list kevent) :=
    match w_cur w l with
    | None => Ok (w, [])
    | Some (Cur m _ redirected) =>
        let w1 := set_cur w l None in
        match m_next m with
        | Some nx =>
            if kept || redirected then Ok (w1, [EEnd l m false])
            else
              let m' := Msg (w_uid w1) (SLoc l) nx None (m_type m) (m_reply m) (Some (m_uid m)) (m_handler m) in
              Ok (put w1 l m', [EEnd l m true; ESent m'])
        | None => Ok (w1, [EEnd l m false])
        end
    end.

  (** supervisor.h:543-560, the matching branch: the response is put, then
      uplifted to the front of the queue. *)
  Definition forward (w : world) (l : loc) (origin : N) : res (world * list kevent) :=
    match w_cur w l with
    | Some (Cur m false rd) =>
        if m_reply m then
          let f := Msg (w_uid w) (SFwd l) origin None (m_type m) false (Some (m_uid m)) None in
          let w1 := put w l f in
          match uplift (w_queue w1 l) with
          | None => AssertFail
          | Some q => Ok (set_cur (set_queue w1 l q) l (Some (Cur m true rd)), [ESent f])
          end
        else Ok (w, [])
    | _ => Ok (w, [])
    end.

  Definition kstep (w : world) (o : kop) : res (world * list kevent) :=
    match o with
    | OSend l a nx ty rep =>
        let m := Msg (w_uid w) (SLoc l) a nx ty rep None None in Ok (put w l m, [ESent m])
    | OExt n a ty =>
        let m := Msg (w_uid w) (SExt n) a None ty false None None in
        Ok (enqueue (new_uid w) m, [ESent m])
    | OPump l =>
        match w_inb w l with
        | [] => Ok (w, [])
        | m :: r =>
            Ok (World (upd (w_queue w) l (w_queue w l ++ [m])) (upd (w_inb w) l r) (w_subs w) (w_cur w) (w_uid w), [])
        end
    | ODispatch l => dispatch w l
    | OForward l origin => forward w l origin
    | ORedirect l a nx =>
        (* actor_base.cpp:48-52 on the message being delivered: it stays referenced
           by the queue, so it is not routed by this dispatch *)
        match w_cur w l with
        | None => Ok (w, [])
        | Some (Cur m rp _) =>
            let m' := Msg (w_uid w) (SLoc l) a nx (m_type m) (m_reply m) None (m_handler m) in
            Ok (set_cur (put w l m') l (Some (Cur m rp true)), [ESent m'])
        end
    | OEnd l kept => end_dispatch w l kept
    | OSub l o =>
        rbind (sstep (addr_in l) (actor_in l) (w_subs w l) o) (fun '(s', _) =>
        Ok (World (w_queue w) (w_inb w) (upd (w_subs w) l s') (w_cur w) (w_uid w), []))
    end.
End Net.
