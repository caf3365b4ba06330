(** Model of the name service: the registry, the actors which use it, and the messages
    between them.

    Code: src/rotor/registry.cpp 17-113 (the registry, RegistryModel.v),
    src/rotor/plugin/registry.cpp 83-97, 129-144, 154-181, 188-282 (its clients,
    ActorModel.v), and the way of the messages: plugin/registry.cpp 135-137 (registration
    request; the service is the actor itself), 157-162 (deregistration), 260-270
    (discovery and promise; the number of the promise is kept in the task), 272-278
    (cancellation); include/rotor/request.hpp 80-107 and 150-190 (requests, their answers
    and cancellations); src/rotor/supervisor.cpp 121-138 (an answer to a request which is
    no longer there is dropped).

    The actors are those of NetModel.v, with all their link messages; this model takes the
    answers of the registry, which were free there, from the registry.

    Simplifications, besides those of NetModel.v and RegistryModel.v:
    - an actor registers its own main address;
    - one queue per actor to the registry and one back, independent of the queues of the
      link messages (more behaviours than the code has);
    - names are numbers for the actors and strings for the registry; [nm] maps them;
    - the registry exists from the start (supervisor.cpp 58-64: the supervisor creates it
      before it creates other actors); a message to it is lost when it is shut down;
    - nobody else uses the registry; deregistration_notify is sent by no code of the
      library. *)
From stdpp Require Import base list gmap strings.
From Verif Require Import Base Prog RegistryModel ActorModel NetModel.
Open Scope N_scope.

Record names := Names {
  y_net : net;
  y_reg : RegistryModel.rstate;
  y_to : N -> list rop;           (* messages to the registry, per sender *)
  y_from : N -> list rout;        (* messages of the registry, per receiver *)
  y_pid : N -> N -> N               (* request_id of the discovery tasks: actor, name *)
}.
Definition upd {A} (f : N -> A) (n : N) (v : A) : N -> A := fun k => if bool_decide (k = n) then v else f k.

(** What is seen: the events of the actors, and answers which are dropped. *)
Inductive yev := YAct (n : N) (x : aev) | YDrop (n : N) (r : rout).
Inductive yop :=
| YNet (o : nop)                    (* anything but an answer of the registry *)
| YServe (p : N)                    (* the registry takes the next message of [p] *)
| YReply (n : N).                   (* [n] takes the next answer *)

Section model.
Context (nm : N -> string) (cfg : N -> plug -> list uact) (ra : N) (unl : N -> bool).

(** The message to the registry an event of [n] stands for. *)
Definition asks (n : N) (pid : N -> N) (x : aev) : option rop :=
  match x with
  | EvReg m id => Some (Reg (RegReq id n (nm m) n))
  | EvDisc m id => Some (Discover (DiscReq id n n (nm m)))
  | EvPromise m id => Some (Promise (DiscReq id n n (nm m)))
  | EvDereg m => Some (DeregService (nm m))
  | EvCancel m => Some (Cancel (pid m) n)
  | _ => None
  end.
Definition keeps (pid : N -> N) (x : aev) : N -> N := match x with EvPromise m id => upd pid m id | _ => pid end.
Definition post (y : names) (nx : N * aev) : names :=
  let '(n, x) := nx in
  Names (y_net y) (y_reg y)
    (match asks n (y_pid y n) x with Some m => upd (y_to y) n (y_to y n ++ [m]) | None => y_to y end)
    (y_from y) (upd (y_pid y) n (keeps (y_pid y n) x)).

(** request.hpp: the answer goes to reply_to of the request. *)
Definition receiver (r : rout) : N :=
  match r with
  | RegOk q | RegAlreadyRegistered q => rr_reply q
  | DiscFound d _ | DiscUnknown d | PromFound d _ | PromCancelled d => dr_reply d
  end.
Definition number (r : rout) : N :=
  match r with
  | RegOk q | RegAlreadyRegistered q => rr_id q
  | DiscFound d _ | DiscUnknown d | PromFound d _ | PromCancelled d => dr_id d
  end.
Definition payload (r : rout) : reply :=
  match r with
  | RegOk _ => RpOk
  | DiscFound _ a | PromFound _ a => RpAddr a
  | _ => RpErr
  end.
Definition emit_out (y : names) (r : rout) : names :=
  Names (y_net y) (y_reg y) (y_to y) (upd (y_from y) (receiver r) (y_from y (receiver r) ++ [r])) (y_pid y).

(** The registry works. *)
Definition serves (w : net) : bool := match w_act w !! ra with Some nd => negb (bool_decide (x_st (w_s nd) = AShutDown)) | None => false end.
(** An answer of the registry does not come from elsewhere. *)
Definition allowed (o : nop) : bool := match o with NLocal _ (OResp _ _) => false | _ => true end.
Definition set_net (y : names) (w : net) : names := Names w (y_reg y) (y_to y) (y_from y) (y_pid y).
Definition y_nstep (y : names) (o : nop) : res (names * list yev) :=
  rbind (nstep cfg ra unl (y_net y) o) (fun '(w, e) => Ok (foldl post (set_net y w) e, (fun '(n, x) => YAct n x) <$> e)).

Definition open (w : net) (n id : N) : bool :=
  match w_act w !! n with Some nd => bool_decide (is_Some (x_pend (w_s nd) !! id)) && negb (bool_decide (x_st (w_s nd) = AShutDown)) | None => false end.
Definition ystep (y : names) (o : yop) : res (names * list yev) :=
  match o with
  | YNet o => if allowed o then y_nstep y o else Ok (y, [])
  | YServe p =>
      match y_to y p with
      | [] => Ok (y, [])
      | m :: l =>
          let y1 := Names (y_net y) (y_reg y) (upd (y_to y) p l) (y_from y) (y_pid y) in
          if serves (y_net y) then
            rbind (rstep (y_reg y) m) (fun '(r, out) =>
              Ok (foldl emit_out (Names (y_net y1) r (y_to y1) (y_from y1) (y_pid y1)) out, []))
          else Ok (y1, [])
      end
  | YReply n =>
      match y_from y n with
      | [] => Ok (y, [])
      | r :: l =>
          let y1 := Names (y_net y) (y_reg y) (y_to y) (upd (y_from y) n l) (y_pid y) in
          if open (y_net y) n (number r) then y_nstep y1 (NLocal n (OResp (number r) (payload r)))
          else Ok (y1, [YDrop n r])
      end
  end.
Definition yinit : names := Names (Net {[ra := WNode ainit []]} (fun _ _ => []) (fun _ _ => 0)) rinit (fun _ => []) (fun _ => []) (fun _ _ => 0).
End model.
