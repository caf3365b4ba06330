(** Model of the texts of messages and of the delivery which prints them.

    Code:
    - src/rotor/misc/default_stringifier.cpp 38-99 (try_visit: a chain of comparisons of
      type_index), 101-107 (stringify_to), 109-302 (on, for each kind);
      15-36 (a point of subscription);
    - src/rotor/plugin/delivery.cpp 52-113 (get_message_level: another chain), 115-125
      (dump_message), 127-137 (inspected delivery and discard);
    - include/rotor/supervisor.h 445-469 and 471-498 (process, plain and inspected).

    A text is a list of tokens: words as they are in the source, pointers, numbers and names.
    Type pointers of different kinds are different (C70).

    Simplifications:
    - texts of errors and demangled names of types are given as numbers (TName);
    - what is pointed to by the payloads is there (requests of responses, handlers of points);
    - for [process]: a message is delivered to handlers which are known by address and kind, what
      the handlers do is a list of new messages; use_count is 1 unless a handler of another
      locality holds the message (then it is forwarded in a handler_call). *)
From stdpp Require Import base list strings.
From Verif Require Import Base.
Open Scope string_scope.
Open Scope list_scope.

Inductive tok := W (s : string) | TPtr (p : N) | TNum (n : N) | TName (n : N).
Inductive owner := Plugin | Supervisor | Foreign | Anonymous.
Record point := Pt { p_tag : owner; p_addr : N; p_type : N }.
Definition owner_word (o : owner) : string := match o with Plugin => "P" | Supervisor => "S" | Foreign => "F" | Anonymous => "A" end.
Definition point_text (p : point) : list tok := [W "{"; W (owner_word (p_tag p)); W " : "; TPtr (p_addr p); W " / "; TName (p_type p); W "}"].

Inductive kind := KUnsub | KUnsubExt | KSub | KSubExt | KCommit | KCall | KInitReq | KInitRes | KStart | KTrigger | KShutReq | KShutRes
 | KCreate | KSpawn | KRegReq | KRegRes | KDeregNotify | KDeregService | KDiscReq | KDiscRes | KPromise | KFuture | KCancel
 | KLinkReq | KLinkRes | KUnlinkNotify | KUnlinkReq | KUnlinkRes.
Global Instance kind_eq_dec : EqDecision kind.
Proof. solve_decision. Defined.

(** What the texts show of the payloads; [ee], [reason]: text of an error, if there is one. *)
Inductive msg :=
| MUser (type addr : N)
| MUnsub (p : point) (addr : N) | MUnsubExt (p : point) (addr : N) | MSub (p : point) (addr : N) | MSubExt (p : point) (addr : N) | MCommit (p : point) (addr : N)
| MCall (orig : msg) (actor addr : N)
| MInitReq (id addr : N) | MInitRes (id origin : N) (ee : option N) (addr : N)
| MStart (addr : N) | MTrigger (actor : N) (reason : option N) (addr : N)
| MShutReq (id origin : N) (reason : option N) (addr : N) | MShutRes (id origin : N) (ee : option N) (addr : N)
| MCreate (type addr : N) | MSpawn (spawner addr : N)
| MRegReq (id name service addr : N) | MRegRes (id name service : N) (ee : option N) (addr : N)
| MDeregNotify (service addr : N) | MDeregService (name addr : N)
| MDiscReq (name addr : N) | MDiscRes (name : N) (res : N + N) (addr : N)
| MPromise (name addr : N) | MFuture (name : N) (res : N + N) (addr : N) | MCancel (source addr : N)
| MLinkReq (origin addr : N) | MLinkRes (origin : N) (ee : option N) (addr : N)
| MUnlinkNotify (client addr : N) | MUnlinkReq (server addr : N) | MUnlinkRes (server : N) (ee : option N) (addr : N).
Definition fail (ee : option N) : list tok := match ee with Some e => [W ", fail:"; TName e] | None => [] end.
Definition why (r : option N) : list tok := match r with Some e => [W " : "; TName e] | None => [] end.
Definition found (r : N + N) : list tok := match r with inl e => [W ", fail:"; TName e] | inr a => [W " -> @ "; TPtr a] end.
(** message.address *)
Definition addr_of (m : msg) : N :=
  match m with
  | MUser _ a | MUnsub _ a | MUnsubExt _ a | MSub _ a | MSubExt _ a | MCommit _ a | MCall _ _ a | MInitReq _ a | MInitRes _ _ _ a | MStart a | MTrigger _ _ a
  | MShutReq _ _ _ a | MShutRes _ _ _ a | MCreate _ a | MSpawn _ a | MRegReq _ _ _ a | MRegRes _ _ _ _ a | MDeregNotify _ a | MDeregService _ a | MDiscReq _ a
  | MDiscRes _ _ a | MPromise _ a | MFuture _ _ a | MCancel _ a | MLinkReq _ a | MLinkRes _ _ a | MUnlinkNotify _ a | MUnlinkReq _ a | MUnlinkRes _ _ a => a
  end.
(** type_index: of one of rotor's kinds, or another *)
Definition kind_of (m : msg) : option kind :=
  match m with
  | MUser _ _ => None | MUnsub _ _ => Some KUnsub | MUnsubExt _ _ => Some KUnsubExt | MSub _ _ => Some KSub | MSubExt _ _ => Some KSubExt | MCommit _ _ => Some KCommit
  | MCall _ _ _ => Some KCall | MInitReq _ _ => Some KInitReq | MInitRes _ _ _ _ => Some KInitRes | MStart _ => Some KStart | MTrigger _ _ _ => Some KTrigger
  | MShutReq _ _ _ _ => Some KShutReq | MShutRes _ _ _ _ => Some KShutRes | MCreate _ _ => Some KCreate | MSpawn _ _ => Some KSpawn | MRegReq _ _ _ _ => Some KRegReq
  | MRegRes _ _ _ _ _ => Some KRegRes | MDeregNotify _ _ => Some KDeregNotify | MDeregService _ _ => Some KDeregService | MDiscReq _ _ => Some KDiscReq
  | MDiscRes _ _ _ => Some KDiscRes | MPromise _ _ => Some KPromise | MFuture _ _ _ => Some KFuture | MCancel _ _ => Some KCancel | MLinkReq _ _ => Some KLinkReq
  | MLinkRes _ _ _ => Some KLinkRes | MUnlinkNotify _ _ => Some KUnlinkNotify | MUnlinkReq _ _ => Some KUnlinkReq | MUnlinkRes _ _ _ => Some KUnlinkRes
  end.
(** the chain of try_visit, in its order *)
Definition visit_chain : list kind := [KUnsub; KUnsubExt; KSub; KSubExt; KCommit; KCall; KInitReq; KInitRes; KStart; KTrigger; KShutReq; KShutRes; KCreate; KSpawn;
  KRegReq; KRegRes; KDeregNotify; KDeregService; KDiscReq; KDiscRes; KPromise; KFuture; KCancel; KLinkReq; KLinkRes; KUnlinkNotify; KUnlinkReq; KUnlinkRes].
Definition visited (m : msg) : bool := match kind_of m with Some k => bool_decide (k ∈ visit_chain) | None => false end.
(** on(...); a static_cast to another kind does not occur *)
Fixpoint stringify (m : msg) : list tok :=
  (if visited m then
     match m with
     | MUser _ _ => []
     | MUnsub p _ => W "r::unsubscription " :: point_text p
     | MUnsubExt p _ => W "r::unsubscription_external " :: point_text p
     | MSub p _ => W "r::subscription " :: point_text p
     | MSubExt p _ => W "r::external_subscription " :: point_text p
     | MCommit p _ => W "r::commit_unsubscription " :: point_text p
     | MCall orig actor _ => W "r::handler_call {" :: stringify orig ++ [W "} @ "; TPtr actor]
     | MInitReq id a => [W "r::init_request #"; TNum id; W " > "; TPtr a]
     | MInitRes id o ee _ => [W "r::init_response #"; TNum id; W " > "; TPtr o] ++ fail ee
     | MStart a => [W "r::start_trigger @ "; TPtr a]
     | MTrigger x r _ => [W "r::shutdown_trigger @ "; TPtr x] ++ why r
     | MShutReq id o r _ => [W "r::shutdown_request # "; TNum id; W " > "; TPtr o] ++ why r
     | MShutRes id o ee _ => [W "r::shutdown_response # "; TNum id; W " > "; TPtr o] ++ fail ee
     | MCreate t a => [W "r::create_actor @ "; TPtr a; W " : "; TName t]
     | MSpawn x a => [W "r::spawn_actor @{ "; TPtr a; W " -> "; TPtr x; W "}"]
     | MRegReq id n x _ => [W "r::registration_request # "; TNum id; W " '"; TName n; W " @ "; TPtr x]
     | MRegRes id n x ee _ => [W "r::registration_response # "; TNum id; W " '"; TName n; W "' @ "; TPtr x] ++ fail ee
     | MDeregNotify x _ => [W "r::deregistration_notify @ "; TPtr x]
     | MDeregService n _ => [W "r::deregistration_service '"; TName n; W "'"]
     | MDiscReq n _ => [W "r::discovery_request '"; TName n; W "'"]
     | MDiscRes n r _ => [W "r::discovery_response '"; TName n; W "'"] ++ found r
     | MPromise n _ => [W "r::discovery_promise '"; TName n; W "'"]
     | MFuture n r _ => [W "r::discovery_future '"; TName n; W "'"] ++ found r
     | MCancel x _ => [W "r::discovery_cancel @ "; TPtr x]
     | MLinkReq o a => [W "r::link_request @ "; TPtr a; W "-> @ "; TPtr o]
     | MLinkRes o ee _ => [W "r::link_response @ "; TPtr o] ++ fail ee
     | MUnlinkNotify x _ => [W "r::unlink_notify @ "; TPtr x]
     | MUnlinkReq x _ => [W "r::unlink_request @ "; TPtr x]
     | MUnlinkRes x ee _ => [W "r::unlink_response @ "; TPtr x] ++ fail ee
     end
   else [W "[?] "; TName (match m with MUser t _ => t | _ => 0%N end)])
  ++ [W " => "; TPtr (addr_of m)].

(** get_message_level: the chain, in its order *)
Definition level_chain : list (kind * Z) := [(KUnsub, 9); (KSub, 9); (KUnsubExt, 9); (KSubExt, 9); (KCommit, 9); (KDeregService, 2); (KRegReq, 2); (KRegRes, 2);
  (KDiscReq, 2); (KDiscRes, 2); (KPromise, 2); (KFuture, 2); (KCancel, 2); (KLinkReq, 5); (KLinkRes, 3); (KTrigger, 1); (KCall, 20); (KInitReq, 11); (KInitRes, 11);
  (KStart, 10); (KShutReq, 15); (KShutRes, 15); (KCreate, 7); (KSpawn, 7); (KDeregNotify, 3); (KUnlinkNotify, 8); (KUnlinkReq, 8); (KUnlinkRes, 8)]%Z.
Fixpoint first_level (l : list (kind * Z)) (k : kind) : Z :=
  match l with [] => 0%Z | (k', n) :: l' => if bool_decide (k = k') then n else first_level l' k end.
Definition level (m : msg) : Z := match kind_of m with Some k => first_level level_chain k | None => 0%Z end.
(** dump_message; [env]: ROTOR_INSPECT_DELIVERY as a number *)
Definition dump (env : option Z) (prefix : string) (m : msg) : list (list tok) :=
  match env with
  | Some th => if bool_decide (level m <= th)%Z then [W prefix :: W "{" :: TNum (Z.to_N (level m)) :: W "} " :: stringify m] else []
  | None => []
  end.

(** process.  [recipients]: the handlers for an address and a kind of this locality, if there is an entry;
    [does]: what a handler sends; [holds]: whether it keeps the message. *)
Inductive pev := ECall (h : N) (m : msg) | EEnqueue (m : msg) | EPrint (t : list tok).
Record qmsg := QM { q_msg : msg; q_route : option msg }.
(** the message as it is at the second address: with the address changed *)
Section process.
Context (inspected : bool) (env : option Z) (local : N -> bool) (recipients : msg -> option (list N)) (does : N -> msg -> list qmsg) (holds : N -> msg -> bool).
Definition one (q : qmsg) : list qmsg * list pev :=
  let m := q_msg q in
  if local (addr_of m) then
    let rs := recipients m in
    let hs := default [] rs in
    let sent := concat (map (fun h => does h m) hs) in
    let shown := if inspected then match rs with Some _ => map EPrint (dump env ">> " m) | None => [] end else [] in
    let calls := map (fun h => ECall h m) hs in
    match q_route q with
    | Some m' => if existsb (fun h => holds h m) hs
                 then (sent, shown ++ calls ++ (if inspected then match rs with None => map EPrint (dump env "<DISCARDED> " m) | _ => [] end else []))
                 else (sent ++ [QM m' None], shown ++ calls)
    | None => (sent, shown ++ calls ++ (if inspected then match rs with None => map EPrint (dump env "<DISCARDED> " m) | _ => [] end else []))
    end
  else ([], [EEnqueue m]).
Fixpoint process (fuel : nat) (q : list qmsg) : list qmsg * list pev * nat :=
  match fuel, q with
  | S fuel', x :: q' =>
      let '(new, e) := one x in
      let '(r, e', n) := process fuel' (q' ++ new) in
      (r, e ++ e', ((if local (addr_of (q_msg x)) then 0 else 1) + n)%nat)
  | _, _ => (q, [], 0%nat)
  end.
End process.
