(** Model of the registry actor, src/rotor/registry.cpp, include/rotor/registry.h. *)
From stdpp Require Import base gmap list strings sets.
From Verif Require Import Base.

Definition name := string.
(** [address_ptr_t]: identity of an address object. *)
Definition addr := N.

(** [message::registration_request_t], include/rotor/messages.hpp
    (registration_request_t: service_name, service_addr) wrapped by
    include/rotor/request.hpp:80-95 (id, reply_to, origin). *)
Record reg_req := RegReq { rr_id : N; rr_reply : addr; rr_name : name; rr_addr : addr }.
(** [message::discovery_request_t] / [message::discovery_promise_t]: wrapped
    request with service_name; request.hpp:80-95. *)
Record disc_req := DiscReq { dr_id : N; dr_origin : addr; dr_reply : addr; dr_name : name }.

Global Instance reg_req_eq_dec : EqDecision reg_req.
Proof. solve_decision. Defined.
Global Instance disc_req_eq_dec : EqDecision disc_req.
Proof. solve_decision. Defined.

(** Messages the registry handles, registry.cpp:17-22. *)
Inductive rop :=
| Reg (r : reg_req)                    (* registration_request_t *)
| Dereg (a : addr)                     (* deregistration_notify_t *)
| DeregService (n : name)              (* deregistration_service_t *)
| Discover (d : disc_req)              (* discovery_request_t *)
| Promise (d : disc_req)               (* discovery_promise_t *)
| Cancel (id : N) (source : addr).     (* discovery_cancel_t, request.hpp:101-107 *)

(** Messages the registry sends. *)
Inductive rout :=
| RegOk (r : reg_req)
| RegAlreadyRegistered (r : reg_req)
| DiscFound (d : disc_req) (a : addr)
| DiscUnknown (d : disc_req)
| PromFound (d : disc_req) (a : addr)
| PromCancelled (d : disc_req).

Global Instance rout_eq_dec : EqDecision rout.
Proof. solve_decision. Defined.

(** Members of [registry_t], include/rotor/registry.h: registered_map,
    reverse_map, promises.  The hash maps are finite maps, [std::set<string>] is
    [gset string], the promise list keeps its order. *)
Record rstate := RState {
  registered : gmap name addr;
  reverse : gmap addr (gset name);
  promises : list disc_req
}.

Definition rinit : rstate := RState ∅ ∅ [].

(** registry.cpp:42-49: repeatedly find the first promise with the name, reply
    and erase it, continuing from the erased position.  The loop is the
    structural recursion over the promise list. *)
Fixpoint answer_promises (n : name) (a : addr) (ps : list disc_req)
  : list disc_req * list rout :=
  match ps with
  | [] => ([], [])
  | p :: ps' =>
      let '(rest, out) := answer_promises n a ps' in
      if decide (dr_name p = n) then (rest, PromFound p a :: out)
      else (p :: rest, out)
  end.

(** registry.cpp:27-50 *)
Definition on_reg (s : rstate) (r : reg_req) : rstate * list rout :=
  match registered s !! rr_name r with
  | Some _ => (s, [RegAlreadyRegistered r])
  | None =>
      let names := default ∅ (reverse s !! rr_addr r) in
      let '(ps, out) := answer_promises (rr_name r) (rr_addr r) (promises s) in
      (RState (<[rr_name r := rr_addr r]> (registered s))
              (<[rr_addr r := {[rr_name r]} ∪ names]> (reverse s)) ps,
       RegOk r :: out)
  end.

(** registry.cpp:52-61; the [for] loop erases every name of the set. *)
Definition on_dereg (s : rstate) (a : addr) : rstate * list rout :=
  match reverse s !! a with
  | None => (s, [])
  | Some names =>
      (RState (foldr delete (registered s) (elements names))
              (delete a (reverse s)) (promises s), [])
  end.

(** registry.cpp:63-72; [reverse_map.at] throws in a noexcept function when the
    key is missing: [Crash]. *)
Definition on_dereg_service (s : rstate) (n : name) : res (rstate * list rout) :=
  match registered s !! n with
  | None => Ok (s, [])
  | Some a =>
      match reverse s !! a with
      | None => Crash
      | Some names =>
          Ok (RState (delete n (registered s))
                     (<[a := names ∖ {[n]}]> (reverse s)) (promises s), [])
      end
  end.

(** registry.cpp:74-85 *)
Definition on_discovery (s : rstate) (d : disc_req) : rstate * list rout :=
  match registered s !! dr_name d with
  | Some a => (s, [DiscFound d a])
  | None => (s, [DiscUnknown d])
  end.

(** registry.cpp:87-97 *)
Definition on_promise (s : rstate) (d : disc_req) : rstate * list rout :=
  match registered s !! dr_name d with
  | Some a => (s, [PromFound d a])
  | None => (RState (registered s) (reverse s) (promises s ++ [d]), [])
  end.

(** registry.cpp:102-103,111: search from the back ([rbegin]) for id and origin,
    reply with the cancelled error and erase that element.  On the reversed list
    this is "first match". *)
Fixpoint cancel_first (id : N) (src : addr) (ps : list disc_req)
  : option (disc_req * list disc_req) :=
  match ps with
  | [] => None
  | p :: ps' =>
      if decide (dr_id p = id /\ dr_origin p = src) then Some (p, ps')
      else match cancel_first id src ps' with
           | None => None
           | Some (q, rest) => Some (q, p :: rest)
           end
  end.

(** registry.cpp:99-113 *)
Definition on_cancel (s : rstate) (id : N) (src : addr) : rstate * list rout :=
  match cancel_first id src (rev (promises s)) with
  | None => (s, [])
  | Some (p, rest) =>
      (RState (registered s) (reverse s) (rev rest), [PromCancelled p])
  end.

Definition rstep (s : rstate) (o : rop) : res (rstate * list rout) :=
  match o with
  | Reg r => Ok (on_reg s r)
  | Dereg a => Ok (on_dereg s a)
  | DeregService n => on_dereg_service s n
  | Discover d => Ok (on_discovery s d)
  | Promise d => Ok (on_promise s d)
  | Cancel id src => Ok (on_cancel s id src)
  end.
