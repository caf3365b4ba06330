(** Model of the reference counts of messages, handlers, subscription infos and actors,
    and of every place of the library which holds a counted pointer.

    Code: include/rotor/arc.hpp 14-27 (the counter; boost::intrusive_ptr),
    include/rotor/message.h 128-131 (make_message), include/rotor/supervisor.h 182 (put),
    446-468 (process), 525-541 and 543-566 (requests and their answers), 600-620
    (responses, create_actor); src/rotor/supervisor.cpp 34-39 (~supervisor_t), 90-106
    (subscribe), 121-138 (on_request_trigger), 165-171 (uplift_last_message);
    src/rotor/system_context.cpp 41-48 (~system_context_t); src/rotor/handler.cpp 34-42
    (a handler counts for its actor); src/rotor/plugin/delivery.cpp 39-51 (calls for
    handlers of other localities); the [enqueue] and the emptying of the inbound queue of
    the backends: thread/supervisor_thread.cpp 25-30, thread/system_context_thread.cpp
    46-51 and 86-90, ev/supervisor_ev.cpp 70-75 and 149-157, asio/supervisor_asio.cpp
    81-91 and 113-128, fltk/system_context_fltk.cpp 33-41 and 49-58;
    plugin/child_manager.cpp (child_info holds the actor, create_actor_t too);
    src/rotor/messages.cpp 13-20 (~handler_call_t); src/rotor/actor_base.cpp 48-52
    (redirect).

    A function of the library is the list of its pointer operations ([body]); any number of
    threads run such functions, and between any two pointer operations of one thread
    others may do theirs.  A destructor is run by the thread which released the last
    pointer: it releases the members one by one, and these may be destroyed in turn.

    Simplifications:
    - a pointer is an entry (place, object); containers keep their order;
    - addresses are left out: they hold no counted pointer (address.hpp 27-41); that an
      address refers to its supervisor by a plain reference is what makes [IPush] crash
      when the supervisor is gone;
    - what a function does besides (maps, states) is not here; which functions are called
      in which order is arbitrary, except that the bodies are not torn apart;
    - an operation on a pointer which is not there does nothing (the guards of the code,
      [queue->size()], the result of [pop], [find], are these);
    - next_route is a flag; handler->actor_ptr->get_supervisor() of a call is known when the
      call is made; [process] is not entered again by a handler;
    - touching a container of an object whose destructor has begun is a crash;
    - payloads and user data hold pointers to messages, handlers and actors which exist
      when the message is made ([inner]). *)
From stdpp Require Import base list gmap.
From Verif Require Import Base.
Open Scope N_scope.

(** Members which hold counted pointers: what a message, info, error or handler was made
    with; child_info::actor; lifetime_plugin_t::points; subscription_t::internal_infos;
    supervisor_t::request_map; init_request, shutdown_request, pending link requests and
    what a user's actor keeps. *)
Inductive fld := FInner | FChild | FPoint | FMap | FReq | FKeep.
Inductive cell :=
| CVar (t x : N)                 (* variable [x] of thread [t] *)
| CRaw (t x : N)                 (* a plain pointer which owns (after detach, after pop) *)
| CUser                          (* pointers the program keeps outside of all actors *)
| CCtx (c : N)                   (* system_context_t::supervisor *)
| CField (o : N) (f : fld)
| CQueue (s : N)                 (* supervisor_t::queue, deque of counted pointers *)
| CIn (s : N).                   (* supervisor_t::inbound_queue, plain pointers *)
Global Instance fld_eq : EqDecision fld. Proof. solve_decision. Defined.
Global Instance cell_eq : EqDecision cell. Proof. solve_decision. Defined.
Definition owner (c : cell) : option N :=
  match c with CField o _ | CQueue o | CIn o => Some o | _ => None end.

(** [KCall s]: a message with handler_call_t, [s] the supervisor of the handler's actor. *)
Inductive kind := KMsg | KHandler | KInfo | KActor | KCall (s : N).
Global Instance kind_eq : EqDecision kind. Proof. solve_decision. Defined.
Record obj := Obj { o_kind : kind; o_cnt : N; o_route : bool }.
(** How far a destructor is: emptying the inbound queue, passing on the message of a call,
    members, memory. *)
Inductive phase := PDrain | PRoute | PMembers | PFree.
Global Instance phase_eq : EqDecision phase. Proof. solve_decision. Defined.

Inductive src := SVar (x : N) | SFrom (c : cell) (o : N) | SRaw (o : N).
Inductive instr :=
| INew (x : N)                                   (* new Actor *)
| IMake (x : N) (k : kind) (route : bool) (inner : list src)
| ICopy (c : cell) (x : N)
| IDetach (c : cell) (back : bool) (r : N)       (* r = c.front().detach() *)
| IAttach (r x : N) (add : bool)                 (* x = intrusive_ptr(r, add) *)
| IPop (c : cell) (back : bool)
| IMove (x : N) (c : cell) (front : bool)
| IAdopt (x s : N)                               (* child_info_t(actor) *)
| IPush (r s : N)                                (* inbound_queue.push(r) *)
| IFetch (s r : N)                               (* inbound_queue.pop(r) *)
| IReset (x : N)
| IErase (c : cell) (o : N)
| IDrain (s : N)                                 (* while (pop(ptr)) release(ptr) *)
| IRoute (x s : N)                               (* supervisor.h 458-461 *)
| IMark (x : N) (route : bool).                  (* x->next_route = … *)

Definition entry : Type := cell * option N.
Record mem := Mem {
  heap : gmap N obj;
  ptrs : list entry;
  dying : list (N * N * phase);                  (* thread, object, how far *)
  next : N;
  prog : N -> list instr
}.

(** First and last entry of a place; an entry with a given pointer. *)
Fixpoint take1 (c : cell) (l : list entry) : option (option N * list entry) :=
  match l with
  | [] => None
  | (c', p) :: l =>
      if bool_decide (c' = c) then Some (p, l)
      else match take1 c l with Some (q, l') => Some (q, (c', p) :: l') | None => None end
  end.
Fixpoint takeb (c : cell) (l : list entry) : option (option N * list entry) :=
  match l with
  | [] => None
  | (c', p) :: l =>
      match takeb c l with
      | Some (q, l') => Some (q, (c', p) :: l')
      | None => if bool_decide (c' = c) then Some (p, l) else None
      end
  end.
Definition take (back : bool) : cell -> list entry -> option (option N * list entry) := if back then takeb else take1.
Fixpoint pick (c : cell) (o : N) (l : list entry) : option (list entry) :=
  match l with
  | [] => None
  | e :: l => if bool_decide (e = (c, Some o)) then Some l else (fun l' => e :: l') <$> pick c o l
  end.
(** First entry of a place of [o]: members in the order of their destructors. *)
Fixpoint member (o : N) (l : list entry) : option (option N * list entry) :=
  match l with
  | [] => None
  | (c', p) :: l =>
      if bool_decide (owner c' = Some o) && negb (bool_decide (c' = CIn o)) then Some (p, l)
      else match member o l with Some (q, l') => Some (q, (c', p) :: l') | None => None end
  end.

Definition usable (s : mem) (o : N) : bool :=
  match heap s !! o with Some b => negb (o_cnt b =? 0) | None => false end.
(** A place may be touched if the object it is in is not destroyed. *)
Definition open (s : mem) (c : cell) : bool := match owner c with Some o => usable s o | None => true end.
Definition set_ptrs (s : mem) (l : list entry) : mem := Mem (heap s) l (dying s) (next s) (prog s).
Definition set_cnt (s : mem) (o n : N) (b : obj) : mem :=
  Mem (<[o := Obj (o_kind b) n (o_route b)]> (heap s)) (ptrs s) (dying s) (next s) (prog s).
Definition set_route (s : mem) (o : N) (r : bool) (b : obj) : mem :=
  Mem (<[o := Obj (o_kind b) (o_cnt b) r]> (heap s)) (ptrs s) (dying s) (next s) (prog s).
(** intrusive_ptr_add_ref, intrusive_ptr_release. *)
Definition incr (s : mem) (o : N) : res mem :=
  match heap s !! o with Some b => if o_cnt b =? 0 then Crash else Ok (set_cnt s o (o_cnt b + 1) b) | None => Crash end.
Definition decr (s : mem) (t o : N) : res mem :=
  match heap s !! o with
  | Some b =>
      if o_cnt b =? 0 then Crash
      else if o_cnt b =? 1 then
        let s1 := set_cnt s o 0 b in Ok (Mem (heap s1) (ptrs s1) ((t, o, PDrain) :: dying s1) (next s1) (prog s1))
      else Ok (set_cnt s o (o_cnt b - 1) b)
  | None => Crash
  end.
Definition release (s : mem) (t : N) (p : option N) : res mem := match p with Some o => decr s t o | None => Ok s end.
(** A copy of a pointer to [o], put into [c]. *)
Definition copy (s : mem) (o : N) (c : cell) : res mem :=
  rbind (incr s o) (fun s1 => Ok (set_ptrs s1 (ptrs s1 ++ [(c, Some o)]))).
Definition first (s : mem) (c : cell) : option N :=
  match take1 c (ptrs s) with Some (Some o, _) => Some o | _ => None end.
Definition has (s : mem) (c : cell) (o : N) : bool := bool_decide ((c, Some o) ∈ ptrs s).
Definition load (s : mem) (t : N) (x : src) : res (option N) :=
  match x with
  | SVar x => Ok (first s (CVar t x))
  | SFrom c o => if open s c then Ok (if has s c o then Some o else None) else Crash
  | SRaw o => if usable s o then Ok (Some o) else Crash
  end.
(** The arguments of a constructor, then its members. *)
Fixpoint loads (s : mem) (t : N) (inner : list src) : res (list N) :=
  match inner with
  | [] => Ok []
  | x :: l => rbind (load s t x) (fun p => rbind (loads s t l) (fun os => Ok (option_list p ++ os)))
  end.
Fixpoint fill (s : mem) (n : N) (os : list N) : res mem :=
  match os with
  | [] => Ok s
  | o :: os => rbind (copy s o (CField n FInner)) (fun s1 => fill s1 n os)
  end.
Definition alloc (s : mem) (k : kind) (route : bool) (c : cell) : mem :=
  Mem (<[next s := Obj k 1 route]> (heap s)) (ptrs s ++ [(c, Some (next s))]) (dying s) (next s + 1) (prog s).
Definition put_entry (front : bool) (e : entry) (l : list entry) : list entry := if front then e :: l else l ++ [e].

(** One pointer operation of thread [t]. *)
Definition exec (s : mem) (t : N) (i : instr) : res mem :=
  match i with
  | INew x => Ok (alloc s KActor false (CVar t x))
  | IMake x k route inner =>
      if bool_decide (k = KActor) then Crash
      else rbind (loads s t inner) (fun os => fill (alloc s k route (CVar t x)) (next s) os)
  | ICopy c x =>
      if open s c then match first s c with Some o => copy s o (CVar t x) | None => Ok s end else Crash
  | IDetach c back r =>
      if open s c then
        match take back c (ptrs s) with
        | Some (Some o, l) =>
            let l := match owner c with Some _ => put_entry (negb back) (c, None) l | None => l end in
            Ok (set_ptrs s (l ++ [(CRaw t r, Some o)]))
        | _ => Ok s
        end
      else Crash
  | IAttach r x add =>
      match take1 (CRaw t r) (ptrs s) with
      | Some (Some o, l) =>
          let s1 := set_ptrs s (l ++ [(CVar t x, Some o)]) in if add then incr s1 o else Ok s1
      | _ => Ok s
      end
  | IPop c back =>
      if open s c then
        match take back c (ptrs s) with Some (p, l) => release (set_ptrs s l) t p | None => Ok s end
      else Crash
  | IMove x c front =>
      match take1 (CVar t x) (ptrs s) with
      | Some (Some o, l) => if open s c then Ok (set_ptrs s (put_entry front (c, Some o) l)) else Crash
      | _ => Ok s
      end
  | IAdopt x p =>
      match take1 (CVar t x) (ptrs s) with
      | Some (Some o, l) =>
          if open s (CField p FChild) then
            if bool_decide (p < o) && bool_decide (o_kind <$> heap s !! o = Some KActor)
            then Ok (set_ptrs s (l ++ [(CField p FChild, Some o)])) else Ok s
          else Crash
      | _ => Ok s
      end
  | IPush r p =>
      match take1 (CRaw t r) (ptrs s) with
      | Some (Some o, l) => if open s (CIn p) then Ok (set_ptrs s (l ++ [(CIn p, Some o)])) else Crash
      | _ => Ok s
      end
  | IFetch p r =>
      if open s (CIn p) then
        match take1 (CIn p) (ptrs s) with
        | Some (Some o, l) => Ok (set_ptrs s (l ++ [(CRaw t r, Some o)]))
        | _ => Ok s
        end
      else Crash
  | IReset x =>
      match take1 (CVar t x) (ptrs s) with Some (p, l) => release (set_ptrs s l) t p | None => Ok s end
  | IErase c o =>
      if open s c then
        match pick c o (ptrs s) with Some l => release (set_ptrs s l) t (Some o) | None => Ok s end
      else Crash
  | IDrain p =>
      if open s (CIn p) then
        match take1 (CIn p) (ptrs s) with
        | Some (q, l) =>
            let s1 := set_ptrs s l in
            release (Mem (heap s1) (ptrs s1) (dying s1) (next s1) (fun u => if bool_decide (u = t) then IDrain p :: prog s1 u else prog s1 u)) t q
        | None => Ok s
        end
      else Crash
  | IRoute x p =>
      match take1 (CVar t x) (ptrs s) with
      | Some (Some o, l) =>
          match heap s !! o with
          | Some b =>
              if o_route b && (o_cnt b =? 1)
              then if open s (CQueue p)
                   then let s1 := set_ptrs s (l ++ [(CQueue p, Some o)]) in Ok (set_route s1 o false b)
                   else Crash
              else Ok s
          | None => Crash
          end
      | _ => Ok s
      end
  | IMark x route =>
      match first s (CVar t x) with
      | Some o => match heap s !! o with Some b => Ok (set_route s o route b) | None => Crash end
      | None => Ok s
      end
  end.

(** messages.cpp 14-15: the message of the call [o] which is to be passed on, and the
    supervisor it is passed to. *)
Definition due (s : mem) (o : N) : option (N * N * list entry) :=
  match heap s !! o with
  | Some (Obj (KCall p) _ _) =>
      match take1 (CField o FInner) (ptrs s) with
      | Some (Some m, l) =>
          match heap s !! m with
          | Some b => if o_route b && (o_cnt b =? 1) then Some (m, p, l) else None
          | None => None
          end
      | _ => None
      end
  | _ => None
  end.
(** One step of the destructor [t] is running. *)
Definition destroy (s : mem) (t o : N) (p : phase) (d : list (N * N * phase)) : res mem :=
  let at_ (p : phase) (l : list entry) := Mem (heap s) l ((t, o, p) :: d) (next s) (prog s) in
  match p with
  | PDrain =>
      match take1 (CIn o) (ptrs s) with
      | Some (q, l) => release (at_ PDrain l) t q
      | None => Ok (at_ PRoute (ptrs s))
      end
  | PRoute =>
      match due s o with
      | Some (m, p, l) =>
          if usable s p
          then match heap s !! m with
               | Some b => Ok (set_route (at_ PMembers (l ++ [(CIn p, Some m)])) m false b)
               | None => Crash
               end
          else Crash
      | None => Ok (at_ PMembers (ptrs s))
      end
  | PMembers =>
      match member o (ptrs s) with
      | Some (q, l) => release (at_ PMembers l) t q
      | None => Ok (at_ PFree (ptrs s))
      end
  | PFree => Ok (Mem (delete o (heap s)) (ptrs s) d (next s) (prog s))
  end.
(** The innermost destructor of [t]: the first of its entries. *)
Fixpoint current (t : N) (d : list (N * N * phase)) : option (N * phase * list (N * N * phase)) :=
  match d with
  | [] => None
  | (u, o, p) :: d =>
      if bool_decide (u = t) then Some (o, p, d)
      else match current t d with Some (o', p', d') => Some (o', p', (u, o, p) :: d') | None => None end
  end.

(** The functions.  [l] is the leader of the locality of the thread; variable 1 is the
    message being processed. *)
Inductive fn :=
| FSend (l : N) (route : bool) (inner : list src)
| FTake (l : N)
| FEnd (l : N)
| FForeign (s : N)
| FCall (s h : N)
| FFetch (s l : N)
| FUplift (l : N)
| FRequest (l : N) (inner : list src)
| FTimeout (l q : N)
| FReply (l : N)
| FRedirect (l : N) (route : bool)
| FForward (l m q : N)
| FDiscard (l q : N)
| FSubscribe (l a : N)
| FForget (l i : N)
| FUnpoint (a i : N)
| FCreate (l : N)
| FRemove (l a : N)
| FHold (a : N)
| FUnhold (a m : N)
| FRoot (c : N)
| FContext (c s : N)
| FUserKeep
| FUserSend (s : N) (inner : list src)
| FUserDrop (o : N).

Definition body (t : N) (f : fn) : list instr :=
  match f with
  (* message.h 128-131, supervisor.h 182 *)
  | FSend l route inner => [IMake 10 KMsg route inner; IMove 10 (CQueue l) false]
  (* supervisor.h 448-451 *)
  | FTake l => [IDetach (CQueue l) false 0; IAttach 0 1 false; IPop (CQueue l) false]
  (* supervisor.h 458-461, and the end of the block *)
  | FEnd l => [IRoute 1 l; IReset 1]
  (* supervisor.h 464; enqueue: thread 25-27, ev 70-73, asio 81-84, fltk context 49-53 *)
  | FForeign s => [IDetach (CVar t 1) false 0; IPush 0 s]
  (* delivery.cpp 41-46 *)
  | FCall s h => [IMake 11 (KCall s) false [SVar 1; SRaw h]; IDetach (CVar t 11) false 0; IPush 0 s]
  (* thread context 47-50 and 87-90, ev 152-156, asio 114-116 and 125-127, fltk context 38-41 *)
  | FFetch s l => [IFetch s 0; IAttach 0 12 false; IMove 12 (CQueue l) false]
  (* supervisor.cpp 168-170 *)
  | FUplift l => [IDetach (CQueue l) true 0; IAttach 0 13 false; IMove 13 (CQueue l) true; IPop (CQueue l) true]
  (* supervisor.h 521-522, 530-532, and the end of the builder *)
  | FRequest l inner =>
      [IMake 14 KMsg false inner; ICopy (CVar t 14) 15; IMove 15 (CField l FReq) false;
       ICopy (CVar t 14) 16; IMove 16 (CQueue l) false; IReset 14]
  (* supervisor.cpp 126-136, request.hpp 371-380: the error and the answer hold the request *)
  | FTimeout l q =>
      [IMake 17 KInfo false [SFrom (CField l FReq) q];
       IMake 18 KMsg false [SVar 17; SFrom (CField l FReq) q];
       IMove 18 (CQueue l) false; IErase (CField l FReq) q; IReset 17]
  (* supervisor.h 601-612: the request is the message being processed *)
  | FReply l => [IMake 19 KMsg false [SVar 1]; IMove 19 (CQueue l) false]
  (* actor_base.cpp 48-52: the message being processed *)
  | FRedirect l route => [ICopy (CVar t 1) 34; IMark 34 route; IMove 34 (CQueue l) false]
  (* supervisor.h 556: a copy of the payload of message [m] *)
  | FForward l m q => [IMake 20 KMsg false [SFrom (CField m FInner) q]; IMove 20 (CQueue l) false]
  (* supervisor.cpp 141-145 *)
  | FDiscard l q => [IErase (CField l FReq) q]
  (* supervisor.cpp 90-106, subscription.cpp 29-45, lifetime.cpp 92-94; wrap_handler *)
  | FSubscribe l a =>
      [IMake 21 KHandler false [SRaw a]; IMake 22 KInfo false [SVar 21];
       ICopy (CVar t 22) 23; IMove 23 (CField l FMap) false;
       IMake 24 KMsg false [SVar 21]; IMove 24 (CQueue l) false;
       ICopy (CVar t 22) 25; IMove 25 (CField a FPoint) false; IReset 22; IReset 21]
  (* subscription.cpp 82-86; lifetime.cpp 122-123 *)
  | FForget l i => [IErase (CField l FMap) i]
  | FUnpoint a i => [IErase (CField a FPoint) i]
  (* supervisor.h 614-629, child_manager.cpp 148-162 *)
  | FCreate l =>
      [INew 26; ICopy (CVar t 26) 27; IAdopt 27 l; IMake 28 KMsg false [SVar 26]; IMove 28 (CQueue l) false;
       IMove 26 CUser false; IReset 27]
  (* child_manager.cpp 178-199 *)
  | FRemove l a => [IErase (CField l FChild) a]
  (* init_shutdown.cpp 43-48, 53-60: init_request, shutdown_request *)
  | FHold a => [ICopy (CVar t 1) 29; IMove 29 (CField a FKeep) false]
  | FUnhold a m => [IErase (CField a FKeep) m]
  (* system_context.h 97-117 *)
  | FRoot c => [INew 30; ICopy (CVar t 30) 31; IMove 31 (CCtx c) false; IMove 30 CUser false]
  (* system_context.cpp 41-48, and the member [supervisor] *)
  | FContext c s => [IDrain s; IErase (CCtx c) s]
  (* user code *)
  | FUserKeep => [ICopy (CVar t 1) 32; IMove 32 CUser false]
  | FUserSend s inner => [IMake 33 KMsg false inner; IDetach (CVar t 33) false 0; IPush 0 s]
  | FUserDrop o => [IErase CUser o]
  end.

Inductive mop := MCall (t : N) (f : fn) | MGo (t : N).
(** [o] is freed; [route]: it was to be sent on. *)
Inductive mev := VFreed (o : N) (route : bool).
Definition set_prog (s : mem) (t : N) (p : list instr) : mem :=
  Mem (heap s) (ptrs s) (dying s) (next s) (fun u => if bool_decide (u = t) then p else prog s u).
(** [process] takes the next message when it is done with the one before. *)
Definition ready (s : mem) (t : N) (f : fn) : bool :=
  match f with FTake _ => match first s (CVar t 1) with Some _ => false | None => true end | _ => true end.
Definition mstep (s : mem) (o : mop) : res (mem * list mev) :=
  match o with
  | MCall t f =>
      match prog s t, current t (dying s) with
      | [], None => if ready s t f then Ok (set_prog s t (body t f), []) else Ok (s, [])
      | _, _ => Ok (s, [])
      end
  | MGo t =>
      match current t (dying s) with
      | Some (o, p, d) =>
          rbind (destroy s t o p d) (fun s1 => Ok (s1,
            match heap s !! o with Some b => if bool_decide (p = PFree) then [VFreed o (o_route b)] else [] | None => [] end))
      | None =>
          match prog s t with
          | [] => Ok (s, [])
          | i :: p => rbind (exec (set_prog s t p) t i) (fun s1 => Ok (s1, []))
          end
      end
  end.
Definition minit : mem := Mem ∅ [] [] 0 (fun _ => []).
