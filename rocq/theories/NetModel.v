(** Model of several actors which link to each other.

    Code: everything cited in ActorModel.v (one actor), and the way of the link messages:
    src/rotor/plugin/link_client.cpp 50-57 (link request), 102-117 (answer to an unlink
    request), 154 (unlink notification), src/rotor/plugin/link_server.cpp 41-64 and
    113-121 (answers to link requests), 123-133 (unlink requests); include/rotor/messages.hpp
    (link_request_t, unlink_request_t, unlink_notify_t); src/rotor/supervisor.cpp 121-138.

    Each actor is the model of ActorModel.v.  The link messages it sends are the ones of
    its events, and they are put to a channel; the link messages it receives come from the
    channels, in order.  The other operations of ActorModel.v (init and shutdown requests of
    the supervisor, timeouts, user code, the answers of the registry) stay free.

    Simplifications, besides those of ActorModel.v:
    - one queue per pair of actors: the messages of one actor to another arrive in the
      order in which they were sent (C01, C07); the queues of different pairs are
      independent (more behaviours than the code has);
    - a message to an actor which is shut down, or to an address without an actor, is lost;
    - the answer to an unlink request carries the number of that request; ActorModel.v only
      knows the server, so the number is remembered here ([w_uid]). *)
From stdpp Require Import base list gmap.
From Verif Require Import Base Prog ActorModel.
Open Scope N_scope.

Inductive wmsg :=
| WLinkReq (id : N) (oponly : bool)
| WLinkAns (id : N) (x : lans)
| WNotify
| WUnlinkReq (id : N)
| WUnlinkRep (id : N).
Global Instance wmsg_eq_dec : EqDecision wmsg.
Proof. solve_decision. Defined.

Record wnode := WNode { w_s : astore; w_ev : list aev }.
Record net := Net {
  w_act : gmap N wnode;             (* the actors, by address *)
  w_ch : N -> N -> list wmsg;       (* messages under way: sender, receiver *)
  w_uid : N -> N -> N               (* the last unlink request: client, server *)
}.
Definition upd2 {A} (f : N -> N -> A) (p n : N) (v : A) : N -> N -> A :=
  fun p' n' => if bool_decide (p' = p /\ n' = n) then v else f p' n'.

(** The message an event stands for, and its receiver. *)
Definition wire (uid : N -> N) (x : aev) : option (N * wmsg) :=
  match x with
  | EvLink a o id => Some (a, WLinkReq id o)
  | EvLinkAns c r x => Some (c, WLinkAns r x)
  | EvNotify a => Some (a, WNotify)
  | EvUnlinkReq c id => Some (c, WUnlinkReq id)
  | EvUnlinkReply a => Some (a, WUnlinkRep (uid a))
  | _ => None
  end.
Definition sent (uid : N -> N) (d : N) (e : list aev) : list wmsg :=
  omap (fun x => match wire uid x with Some (d', m) => if bool_decide (d' = d) then Some m else None | None => None end) e.

Inductive nop :=
| NNew (n : N)                      (* an actor is created *)
| NLocal (n : N) (o : aop)          (* anything but a link message *)
| NDeliver (p n : N).               (* [n] takes the next message of [p] *)

(** The operations which do not stand for link messages. *)
Definition plain (s : astore) (o : aop) : bool :=
  match o with
  | OLinkReq _ _ _ | OUnlinkNotify _ | OUnlinkReq _ => false
  | OResp id _ => match x_pend s !! id with Some (QLink _ | QUnlink _) => false | _ => true end
  | _ => true
  end.
(** What the receiver does with a message of [p]. *)
Definition receive (p : N) (m : wmsg) : aop :=
  match m with
  | WLinkReq id o => OLinkReq p id o
  | WLinkAns id x => OResp id (match x with LOk => RpOk | _ => RpErr end)
  | WNotify => OUnlinkNotify p
  | WUnlinkReq _ => OUnlinkReq p
  | WUnlinkRep id => OResp id RpOk
  end.

Section model.
(** The user code of the actors, as in ActorModel.v. *)
Context (cfg : N -> plug -> list uact) (ra : N) (unl : N -> bool).

Definition nact (w : net) (n : N) (nd : wnode) (o : aop) : res (net * list (N * aev)) :=
  rbind (astep (cfg n) ra (unl n) (w_s nd) o) (fun '(s, e) =>
    Ok (Net (<[n := WNode s (w_ev nd ++ e)]> (w_act w))
            (fun p d => if bool_decide (p = n) then w_ch w p d ++ sent (w_uid w n) d e else w_ch w p d)
            (w_uid w),
        (fun x => (n, x)) <$> e)).
Definition take_msg (w : net) (p n : N) (m : wmsg) (l : list wmsg) : net :=
  Net (w_act w) (upd2 (w_ch w) p n l)
      (match m with WUnlinkReq id => upd2 (w_uid w) n p id | _ => w_uid w end).

Definition nstep (w : net) (o : nop) : res (net * list (N * aev)) :=
  match o with
  | NNew n => if bool_decide (is_Some (w_act w !! n)) then Ok (w, []) else Ok (Net (<[n := WNode ainit []]> (w_act w)) (w_ch w) (w_uid w), [])
  | NLocal n o =>
      match w_act w !! n with
      | Some nd => if plain (w_s nd) o then nact w n nd o else Ok (w, [])
      | None => Ok (w, [])
      end
  | NDeliver p n =>
      match w_ch w p n with
      | [] => Ok (w, [])
      | m :: l =>
          match w_act w !! n with
          | Some nd => nact (take_msg w p n m l) n nd (receive p m)
          | None => Ok (take_msg w p n m l, [])
          end
      end
  end.
Definition ninit : net := Net ∅ (fun _ _ => []) (fun _ _ => 0).
End model.
