(** Model of a whole system: a supervisor with its queue (FamilyModel.v), whose children
    are actors with all their plugins and link to each other (NetModel.v).

    Code: everything cited in FamilyModel.v and NetModel.v, and the places where the two
    meet: src/rotor/plugin/init_shutdown.cpp 45-67 (the requests of the supervisor reach
    the actor), src/rotor/actor_base.cpp 35-46 (do_shutdown sends a trigger to the
    supervisor), 96-102 (init_finish answers the init request), 121-144 (shutdown_finish
    answers the shutdown request), src/rotor/plugin/link_client.cpp 59-90 and
    src/rotor/plugin/registry.cpp 107-116 (the init request is answered with an error),
    src/rotor/plugin/link_client.cpp 115-122 (do_shutdown because of a lost link),
    src/rotor/plugin/child_manager.cpp 178-181 (a child comes to life).

    FamilyModel.v lets a child do what it likes: answer its init request, start, call
    do_shutdown, finish its shutdown at any time.  NetModel.v lets the supervisor do what
    it likes: init and shutdown requests come at any time.  Here none of this is free: a
    child of the family is the actor of the net with the same number, an actor gets its
    init and shutdown requests when its supervisor's message is delivered to it, and the
    answers it gives are the messages which the supervisor gets.

    Simplifications, besides those of the two models:
    - the start trigger, the confirmations of subscriptions, the answers of the registry
      and user code stay free operations of the net;
    - the last subscription of an actor is gone when its message [MBye] is delivered, which
      FamilyModel.v puts to the queue together with the handling of the shutdown request;
      in the code the subscriptions are removed after the links are gone, so that an actor
      whose links are gone may need further messages to itself before it is down;
    - the link messages travel beside the queue of the supervisor, in one queue per pair
      of actors (more orders than the code has). *)
From stdpp Require Import base list gmap.
From Verif Require Import Base Prog StateModel ChildMgrModel FamilyModel ActorModel NetModel.
Open Scope N_scope.

Record sys := Sys { y_f : fstate; y_w : net }.
Inductive yev := YSup (e : cevent) | YAct (n : N) (x : aev).
Inductive yop :=
| YFam (o : fop)                    (* the supervisor, its queue and its children *)
| YNet (o : nop).                   (* the actors among themselves, and their users *)

(** What an actor tells its supervisor: each of these events comes with a message. *)
Definition tells (n : N) (x : aev) : option fop :=
  match x with
  | EvInitErr _ => Some (FChildInit n true)
  | EvState AInitializing AInitialized => Some (FChildInit n false)   (* right after EvInitOk *)
  | EvState AInitialized AOperational => Some (FChildStart n)
  | EvState AShuttingDown AShutDown => Some (FChildDone n)
  | EvDoShutdown => Some (FShutdown n)
  | _ => None
  end.
(** What a child does is done by its actor. *)
Definition by_child (o : fop) : bool := match o with FChildInit _ _ | FChildStart _ | FChildDone _ => true | _ => false end.
(** What the supervisor does is done by the family. *)
Definition by_sup (o : nop) : bool :=
  match o with NNew _ | NLocal _ OInitReq | NLocal _ OShutReq | NLocal _ OUnsubscribed => true | _ => false end.

(** The message for a child which the operation hands to its actor. *)
Definition at_actor (f : fstate) (c : N) (m : fmsg) : option (N * aop) :=
  if decide (c ∈ f_bye f) then None
  else match m with
  | MInitReq _ => Some (c, OInitReq)
  | MShutReq _ => Some (c, OShutReq)
  | MBye _ => Some (c, OUnsubscribed)
  | _ => None
  end.
Definition handed (f : fstate) (o : fop) : option (N * aop) :=
  match o with
  | FDeliver _ _ _ _ _ _ _ =>
      match f_q f with
      | (MInitReq c | MShutReq c | MBye c) as m :: _ => if decide (c = 0 \/ c ∈ f_foreign f) then None else at_actor f c m
      | _ => None
      end
  | FChild c _ _ => match downl f c with m :: _ => at_actor f c m | [] => None end
  | _ => None
  end.
Definition born (e : list cevent) : list N := omap (fun x => match x with ECreated c => Some c | _ => None end) e.

Section model.
Context (hp : bool) (policy : spolicy) (sync : bool).
Context (cfg : N -> plug -> list uact) (ra : N) (unl : N -> bool).

(** The actors do something, and the supervisor hears of it. *)
Definition yact (y : sys) (o : nop) : res (sys * list yev) :=
  rbind (nstep cfg ra unl (y_w y) o) (fun '(w, e) =>
  rbind (run (fstep hp policy sync) (y_f y) (omap (fun '(n, x) => tells n x) e)) (fun '(f, ce) =>
    Ok (Sys f w, (uncurry YAct <$> e) ++ (YSup <$> ce)))).

Definition ystep (y : sys) (o : yop) : res (sys * list yev) :=
  match o with
  | YFam o =>
      if by_child o then Ok (y, [])
      else
        rbind (fstep hp policy sync (y_f y) o) (fun '(f, ce) =>
        rbind (run (nstep cfg ra unl) (y_w y) (NNew <$> born ce)) (fun '(w, _) =>
          match handed (y_f y) o with
          | Some (c, a) => rbind (yact (Sys f w) (NLocal c a)) (fun '(y', e) => Ok (y', (YSup <$> ce) ++ e))
          | None => Ok (Sys f w, YSup <$> ce)
          end))
  | YNet o => if by_sup o then Ok (y, []) else yact y o
  end.
Definition yinit : sys := Sys (finit hp) ninit.
End model.
