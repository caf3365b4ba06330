(** Model of the delivery of a message to the handlers of a locality while these handlers
    subscribe and unsubscribe: the vector which is walked over may change.

    Code:
    - src/rotor/plugin/delivery.cpp 39-50 (local_delivery_t::delivery: a range-for over the
      vector [internal] which calls each handler), include/rotor/supervisor.h 445-468
      (process: the reference to the entry of the map);
    - include/rotor/subscription.h 34-46, 85 (std::vector of plain pointers in an entry of a
      boost::unordered_map: entries do not move when others come and go),
      src/rotor/subscription.cpp 25-44 (materialize: try_emplace of the entry, emplace_back),
      62-71 (get_recipients), 73-104 (forget: erase from the vector; the entry too if both
      vectors are empty);
    - src/rotor/supervisor.cpp 90-105 (subscribe: materialize at once, not by a message),
      src/rotor/plugin/plugin_base.cpp 60-83 (forget_subscription).

    A vector is a buffer with a number, its slots (as many as the capacity; those beyond the
    size have old contents) and a size.  A loop keeps the number of the buffer, its
    position and the end; when it reads a slot of a buffer which is not that of the vector any
    more, it reads freed memory.

    Simplifications:
    - only handlers of actors of this locality (those of others get a message, no call);
    - the capacity doubles (libstdc++, libc++), from 0 to 1;
    - comparing an iterator which is invalid with another of the same old buffer is taken to
      compare pointers ([strict] = false); with [strict] = true it is counted as undefined;
    - what a handler does is given by the number of the call. *)
From stdpp Require Import base list gmap.
From Verif Require Import Base.
Open Scope N_scope.

Record vec := Vec { v_buf : N; v_slots : list N; v_size : nat }.
Definition contents (v : vec) : list N := take (v_size v) (v_slots v).
Definition cap (v : vec) : nat := length (v_slots v).
(** [key]: address and type of message *)
Record istate := ISt { i_map : gmap N vec; i_fresh : N }.
Definition iinit : istate := ISt ∅ 0.
Inductive ieff := ESubscribe (key h : N) | EForget (key h : N).
Inductive iev := ECall (h : N).

Definition grow (n : nat) : nat := if decide (n = 0%nat) then 1%nat else (2 * n)%nat.
(** emplace_back *)
Definition push (v : vec) (fresh h : N) : vec * N :=
  if decide (v_size v < cap v)%nat
  then (Vec (v_buf v) (<[v_size v := h]> (v_slots v)) (S (v_size v)), fresh)
  else (Vec fresh (contents v ++ h :: repeat 0 (grow (cap v) - S (v_size v))) (S (v_size v)), fresh + 1).
(** erase: the rest moves down, the last slot keeps what it had *)
Definition drop_at (v : vec) (p : nat) : vec :=
  Vec (v_buf v) (take p (v_slots v) ++ drop (S p) (contents v) ++ drop (v_size v - 1) (v_slots v)) (v_size v - 1).
(** materialize *)
Definition subscribe (s : istate) (key h : N) : istate :=
  let '(v, s1) := match i_map s !! key with
                  | Some v => (v, s)
                  | None => (Vec (i_fresh s) [] 0, ISt (i_map s) (i_fresh s + 1))
                  end in
  let '(v', f) := push v (i_fresh s1) h in
  ISt (<[key := v']> (i_map s1)) f.
Definition position (h : N) (l : list N) : option nat := fst <$> list_find (eq h) l.
(** forget *)
Definition forget (s : istate) (key h : N) : res istate :=
  match i_map s !! key with
  | None => Crash
  | Some v =>
      match position h (contents v) with
      | None => AssertFail
      | Some p =>
          let v' := drop_at v p in
          Ok (ISt (if decide (v_size v' = 0%nat) then delete key (i_map s) else <[key := v']> (i_map s)) (i_fresh s))
      end
  end.
Fixpoint effects (s : istate) (l : list ieff) : res istate :=
  match l with
  | [] => Ok s
  | ESubscribe key h :: l' => effects (subscribe s key h) l'
  | EForget key h :: l' => rbind (forget s key h) (fun s' => effects s' l')
  end.

Section loop.
Context (strict : bool) (does : nat -> list ieff) (key : N).
Definition valid (s : istate) (buf : N) : bool := match i_map s !! key with Some v => bool_decide (v_buf v = buf) | None => false end.
(** The loop at position [i] of buffer [buf], [n] positions before the end. *)
Fixpoint loop (n i : nat) (buf : N) (s : istate) : res (istate * list iev) :=
  match n with
  | O => Ok (s, [])
  | S n' =>
      match i_map s !! key with
      | Some v =>
          if bool_decide (v_buf v = buf) then
            match v_slots v !! i with
            | Some h =>
                rbind (effects s (does i)) (fun s1 =>
                if strict && negb (valid s1 buf) then Crash
                else rbind (loop n' (S i) buf s1) (fun '(s2, e2) => Ok (s2, ECall h :: e2)))
            | None => Crash
            end
          else Crash
      | None => Crash
      end
  end.
Definition deliver (s : istate) : res (istate * list iev) :=
  match i_map s !! key with
  | Some v => loop (v_size v) 0 (v_buf v) s
  | None => Ok (s, [])
  end.
End loop.
