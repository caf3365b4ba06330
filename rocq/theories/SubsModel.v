(** Model of the subscription map of a locality: src/rotor/subscription.cpp,
    include/rotor/subscription.h, the tagging part of
    src/rotor/subscription_point.cpp and src/rotor/handler.cpp.

    Handler and info objects have identities (pointers).  Every subscribe call
    wraps its method into a new handler object (include/rotor/supervisor.h:395-407,
    414-441, 544-563), so a subscription comes with a fresh handler pointer.
    Which actors and addresses belong to the locality is a parameter ([actor_in],
    [addr_in]): same_locality is decided at address creation and never changes. *)
From stdpp Require Import base list gmap.
From Verif Require Import Base.

Notation addr := N (only parsing).
Notation mtype := N (only parsing).
Notation actor := N (only parsing).

(** [handler_base_t] / [handler_intercepted_t], include/rotor/handler.h:
    pointer identity, actor_ptr, message_type(), the pointer of the innermost
    (user) handler and the interception tags around it, outermost first. *)
Record handler := Handler {
  h_ptr : N; h_actor : actor; h_mtype : mtype; h_core : N; h_tags : list N
}.
Global Instance handler_eq_dec : EqDecision handler.
Proof. solve_decision. Defined.

(** [subscription_info_t]: point (handler, address) and classification flags. *)
Record info := Info {
  i_handler : handler; i_addr : addr; i_intaddr : bool; i_inthandler : bool
}.

(** [joint_handlers_t], subscription.h:40-45 *)
Record joint := Joint { j_internal : list handler; j_external : list handler }.

Record subs := Subs {
  sb_heap : gmap N info;                 (* the info objects, by identity *)
  sb_infos : gmap addr (list N);         (* internal_infos *)
  sb_mine : gmap (addr * mtype) joint;   (* mine_handlers *)
  sb_next : N                            (* next fresh pointer *)
}.

Definition subs_init : subs := Subs ∅ ∅ ∅ 0.

Section Locality.
  Variable addr_in : addr -> bool.    (* address->same_locality(main_address) *)
  Variable actor_in : actor -> bool.  (* the same for the actor's address *)

  Definition joint_at (s : subs) (k : addr * mtype) : joint := default (Joint [] []) (sb_mine s !! k).

  Definition joint_push (j : joint) (internal : bool) (h : handler) : joint :=
    if internal then Joint (j_internal j ++ [h]) (j_external j)
    else Joint (j_internal j) (j_external j ++ [h]).

  (** subscription.cpp:25-45.  Returns the new info. *)
  Definition materialize (s : subs) (h : handler) (a : addr) : subs * N :=
    let internal_address := addr_in a in
    let internal_handler := actor_in (h_actor h) in
    let id := sb_next s in
    let heap := <[id := Info h a internal_address internal_handler]> (sb_heap s) in
    if internal_address then
      (Subs heap (<[a := default [] (sb_infos s !! a) ++ [id]]> (sb_infos s))
         (<[(a, h_mtype h) := joint_push (joint_at s (a, h_mtype h)) internal_handler h]> (sb_mine s))
         (N.succ id), id)
    else (Subs heap (sb_infos s) (sb_mine s) (N.succ id), id).

  (** A subscribe call: wrap_handler then materialize. *)
  Definition subscribe (s : subs) (act : actor) (m : mtype) (a : addr) : subs * N :=
    let p := sb_next s in
    materialize (Subs (sb_heap s) (sb_infos s) (sb_mine s) (N.succ p)) (Handler p act m p []) a.

  (** [std::find_if ... erase] of the first element satisfying [f]; [None]: end(). *)
  Fixpoint erase_first {A} (f : A -> bool) (l : list A) : option (list A) :=
    match l with
    | [] => None
    | x :: l' => if f x then Some l' else option_map (cons x) (erase_first f l')
    end.

  Definition handler_of (s : subs) (id : N) : option N := h_ptr ∘ i_handler <$> sb_heap s !! id.

  (** subscription.cpp:100-103: the entry is dropped when both vectors are empty. *)
  Definition mine_set (m : gmap (addr * mtype) joint) (k : addr * mtype) (j : joint) :=
    match j with
    | Joint [] [] => delete k m
    | _ => <[k := j]> m
    end.

  (** subscription.cpp:75-104 *)
  Definition forget (s : subs) (id : N) : res subs :=
    match sb_heap s !! id with
    | None => Crash
    | Some i =>
        if i_intaddr i then
          match sb_infos s !! i_addr i with
          | None => AssertFail                                      (* :81 *)
          | Some lst =>
              match erase_first (fun j => bool_decide (handler_of s j = Some (h_ptr (i_handler i)))) lst with
              | None => Crash                                       (* :86, erase(end()) *)
              | Some lst' =>
                  let infos := match lst' with [] => delete (i_addr i) (sb_infos s)
                                             | _ => <[i_addr i := lst']> (sb_infos s) end in
                  let key := (i_addr i, h_mtype (i_handler i)) in
                  match sb_mine s !! key with
                  | None => Crash                                   (* :92-93, *end() *)
                  | Some j =>
                      let same := fun h => bool_decide (h_ptr h = h_ptr (i_handler i)) in
                      let r := if i_inthandler i
                               then option_map (fun l => Joint l (j_external j)) (erase_first same (j_internal j))
                               else option_map (fun l => Joint (j_internal j) l) (erase_first same (j_external j)) in
                      match r with
                      | None => AssertFail                          (* :99 *)
                      | Some j' =>
                          Ok (Subs (sb_heap s) infos (mine_set (sb_mine s) key j') (sb_next s))
                      end
                  end
              end
          end
        else Ok s
    end.

  (** handler.cpp:44-47, 64-69: a handler already wrapped with the same outermost
      tag is returned unchanged. *)
  Definition upgrade (s : subs) (h : handler) (t : N) : subs * handler :=
    match h_tags h with
    | t' :: _ =>
        if bool_decide (t' = t) then (s, h)
        else (Subs (sb_heap s) (sb_infos s) (sb_mine s) (N.succ (sb_next s)),
              Handler (sb_next s) (h_actor h) (h_mtype h) (h_core h) (t :: h_tags h))
    | [] => (Subs (sb_heap s) (sb_infos s) (sb_mine s) (N.succ (sb_next s)),
             Handler (sb_next s) (h_actor h) (h_mtype h) (h_core h) [t])
    end.

  Fixpoint replace_first (f : handler -> bool) (x : handler) (l : list handler) : option (list handler) :=
    match l with
    | [] => None
    | y :: l' => if f y then Some (x :: l') else option_map (cons y) (replace_first f x l')
    end.

  (** subscription.cpp:47-62, called on the info object itself by
      subscription_point.cpp:39-44.  Simplification: the map of the handler's
      supervisor is this map (the supervisor is the locality leader). *)
  Definition update (s : subs) (id : N) (nh : handler) : res subs :=
    match sb_heap s !! id with
    | None => Crash
    | Some i =>
        let h := i_handler i in
        let heap := <[id := Info nh (i_addr i) (i_intaddr i) (i_inthandler i)]> (sb_heap s) in
        if addr_in (i_addr i) then
          let key := (i_addr i, h_mtype h) in
          match sb_mine s !! key with
          | None => AssertFail                                      (* :54 *)
          | Some j =>
              let same := fun y => bool_decide (h_ptr y = h_ptr h) in
              let r := if actor_in (h_actor h)
                       then option_map (fun l => Joint l (j_external j)) (replace_first same nh (j_internal j))
                       else option_map (fun l => Joint (j_internal j) l) (replace_first same nh (j_external j)) in
              match r with
              | None => AssertFail                                  (* :58 *)
              | Some j' => Ok (Subs heap (sb_infos s) (<[key := j']> (sb_mine s)) (sb_next s))
              end
          end
        else Ok (Subs heap (sb_infos s) (sb_mine s) (sb_next s))
    end.

  (** subscription_point.cpp:39-44 *)
  Definition tag (s : subs) (id : N) (t : N) : res subs :=
    match sb_heap s !! id with
    | None => Crash
    | Some i => let '(s1, nh) := upgrade s (i_handler i) t in update s1 id nh
    end.

  (** subscription.cpp:64-73 followed by the two loops of delivery.cpp:39-50:
      the external handlers, then the internal ones. *)
  Definition get_recipients (s : subs) (a : addr) (m : mtype) : option joint := sb_mine s !! (a, m).

  Definition recipients (s : subs) (a : addr) (m : mtype) : list handler :=
    match get_recipients s a m with
    | None => []
    | Some j => j_external j ++ j_internal j
    end.

  Inductive sop :=
  | Subscribe (act : actor) (m : mtype) (a : addr)
  | Forget (id : N)
  | Tag (id : N) (t : N).

  (** The trace shows each operation with what it returned: the identity of the
      created handler and of the created info for a subscribe. *)
  Definition sev : Type := sop * option (N * N).

  Definition sstep (s : subs) (o : sop) : res (subs * list sev) :=
    match o with
    | Subscribe act m a =>
        let '(s', id) := subscribe s act m a in Ok (s', [(o, Some (sb_next s, id))])
    | Forget id => rbind (forget s id) (fun s' => Ok (s', [(o, None)]))
    | Tag id t => rbind (tag s id t) (fun s' => Ok (s', [(o, None)]))
    end.
End Locality.
Arguments mine_set : simpl never.
