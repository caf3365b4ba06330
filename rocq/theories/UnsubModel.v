(** Model of who is asked when a handler is unsubscribed, and what is found.

    Code:
    - include/rotor/actor_base.h 210-228 (unsubscribe: by method at any address, by method
      at the own address, by handler at the own address), include/rotor/supervisor.h 189-193
      (unsubscribe_actor: [lifetime] is the one of the supervisor), 502-509 (unsubscribe by
      method goes to unsubscribe_actor of the supervisor), 544-563 (wrap_handler: a new
      handler object), src/rotor/supervisor.cpp 31 (a supervisor is its own supervisor),
      90-105 (subscribe: into the lifetime plugin of the actor of the handler);
    - src/rotor/plugin/lifetime.cpp 57-79 (the last point which is equal; assert; the
      confirmation is sent once), 104-128 (the confirmation: again the last one which is equal);
    - src/rotor/subscription_point.cpp 24-39, include/rotor/handler.h 137-139 (equal: the
      type of the handler, the actor and the address), 269-271, 364-366 (the type of a
      handler: of the pointer to the method, so its signature; of the lambda);
    - src/rotor/actor_base.cpp 195-204, 224-233 (the confirmation goes through the plugins
      of the actor).

    There are any number of actors with their supervisors.

    Simplifications:
    - all actors and addresses are in one locality, with one queue of confirmations (the
      other locality is in the model of the teardown, C06, C43-C45);
    - only subscriptions made by actor_base_t::subscribe appear (not those of plugins);
    - the actors do not shut down. *)
From stdpp Require Import base list gmap.
From Verif Require Import Base.
Open Scope N_scope.

(** A method or lambda, by number.  [u_un]: the state UNSUBSCRIBING. *)
Record usub := USub { u_id : N; u_actor : N; u_meth : N; u_addr : N; u_un : bool }.
Record ustate := USt {
  us_points : gmap N (list usub);    (* of the lifetime plugins, by actor *)
  us_queue : list usub;              (* unsubscription_confirmation *)
  us_next : N }.
Definition uinit : ustate := USt ∅ [] 0.
Inductive uop :=
| USubscribe (a m d : N)             (* actor a subscribes its method m at address d *)
| UMethod (a m d : N)                (* unsubscribe(&A::m, d) *)
| UHandler (a h : N) (m : N)         (* unsubscribe(handler): a handler object of actor h with method m; at the address of a *)
| UDeliver.
Inductive uev := EMade (x : usub) | EAsked (x : usub) | EGone (x : usub).

Section model.
(** The supervisor of an actor; a supervisor is its own.  The address of an actor.  The
    type of a handler. *)
Context (sup : N -> N) (home : N -> N) (sig : N -> N).

Definition points (s : ustate) (a : N) : list usub := default [] (us_points s !! a).
(** operator== *)
Definition equal (a m d : N) (x : usub) : bool := bool_decide (u_actor x = a) && bool_decide (sig (u_meth x) = sig m) && bool_decide (u_addr x = d).
Definition find_last (f : usub -> bool) (l : list usub) : option usub := last (List.filter f l).
(** lifetime.cpp:57-79, in the lifetime plugin of [p] *)
Definition unsubscribe (s : ustate) (p a m d : N) : res (ustate * list uev) :=
  match find_last (equal a m d) (points s p) with
  | None => AssertFail
  | Some x =>
      if u_un x then Ok (s, [])
      else
        let mark y := if bool_decide (u_id y = u_id x) then USub (u_id y) (u_actor y) (u_meth y) (u_addr y) true else y in
        Ok (USt (<[p := mark <$> points s p]> (us_points s)) (us_queue s ++ [x]) (us_next s), [EAsked x])
  end.
Definition ustep (s : ustate) (o : uop) : res (ustate * list uev) :=
  match o with
  | USubscribe a m d =>
      let x := USub (us_next s) a m d false in
      Ok (USt (<[a := points s a ++ [x]]> (us_points s)) (us_queue s) (us_next s + 1), [EMade x])
  | UMethod a m d => unsubscribe s (sup a) a m d
  | UHandler a h m => unsubscribe s a h m (home a)
  | UDeliver =>
      match us_queue s with
      | [] => Ok (s, [])
      | x :: q =>
          match find_last (equal (u_actor x) (u_meth x) (u_addr x)) (points s (u_actor x)) with
          | None => Crash
          | Some y => Ok (USt (<[u_actor x := List.filter (fun z => negb (bool_decide (u_id z = u_id y))) (points s (u_actor x))]> (us_points s)) q (us_next s), [EGone y])
          end
      end
  end.
End model.
