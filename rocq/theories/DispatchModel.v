(** Model of the delivery of one message while its handlers change the subscriptions:
    include/rotor/supervisor.h 446-468 (process), src/rotor/plugin/delivery.cpp 38-50,
    src/rotor/subscription.cpp 25-45 (materialize), 64-73 (get_recipients) and 75-104
    (forget).

    delivery() runs [for (auto &handler : local_recipients.internal)] over the vector
    which lives in the subscription map, and subscribe (supervisor.cpp 90-106) and
    commit_unsubscription (supervisor.cpp 108-110) change that vector at once.  The
    model has the storage of the vectors: a buffer has an identity, its elements and
    its capacity.  The range-for keeps two pointers into the buffer: begin and end as
    they were at the start.

    Simplifications: a key (address and message type) is a number; the nodes of
    mine_handlers are stable (boost::unordered_map), so the reference to the two
    vectors is not modelled further; the loop over the external handlers runs no user
    code and is finished when DStart returns; reading outside of the live elements is
    a crash (undefined behaviour), also where the old bytes would still be there; a
    handler whose subscription was forgotten may not be called (its object is
    released by internal_infos, subscription.cpp 86).  Comparing the two pointers of a
    loop after its buffer was released is not counted as a crash.  Growth of a vector
    is a parameter: any capacity above the old size. *)
From stdpp Require Import base list gmap.
From Verif Require Import Base.
Open Scope N_scope.

Record buffer := Buffer { b_elems : list N; b_cap : nat }.
Record joint := Joint { j_ext : list N; j_buf : N }.
(** The loop of delivery(): key, buffer, next index, end index. *)
Record loop := Loop { l_key : N; l_buf : N; l_next : nat; l_end : nat }.
Record dstate := DState {
  d_mine : gmap N joint;
  d_heap : gmap N buffer;
  d_alive : gset N;            (* handlers which internal_infos keeps *)
  d_loop : option loop;
  d_next : N                   (* fresh identities *)
}.

Inductive dop :=
| DSub (k : N) (internal : bool)       (* materialize *)
| DForget (k : N) (internal : bool) (h : N)
| DStart (k : N)                       (* a message for [k] is taken from the queue *)
| DNext.                               (* the loop takes its next step *)
Inductive devent :=
| ESubscribed (k : N) (internal : bool) (h : N) | EForgot (k : N) (h : N)
| EStart (k : N) | EForward (h : N) | ECall (h : N) | EDone (k : N).
Global Instance devent_eq_dec : EqDecision devent.
Proof. solve_decision. Defined.

Section model.
Context (grow : nat -> nat).

Definition dinit : dstate := DState ∅ ∅ ∅ None 0.

(** std::vector::emplace_back *)
Definition emplace_back (heap : gmap N buffer) (b : N) (buf : buffer) (h : N) (fresh : N) : gmap N buffer * N :=
  if Nat.ltb (length (b_elems buf)) (b_cap buf) then (<[b := Buffer (b_elems buf ++ [h]) (b_cap buf)]> heap, b)
  else (<[fresh := Buffer (b_elems buf ++ [h]) (S (length (b_elems buf)) `max` grow (length (b_elems buf)))]> (delete b heap), fresh).

(** subscription.cpp 34-41 *)
Definition materialize (s : dstate) (k : N) (internal : bool) : res (dstate * list devent) :=
  let h := d_next s in
  let '(j, heap) :=
    match d_mine s !! k with
    | Some j => (j, d_heap s)
    | None => (Joint [] (h + 1), <[h + 1 := Buffer [] 0]> (d_heap s))
    end in
  if internal then
    match heap !! j_buf j with
    | None => Crash
    | Some buf =>
        let '(heap', b) := emplace_back heap (j_buf j) buf h (h + 2) in
        Ok (DState (<[k := Joint (j_ext j) b]> (d_mine s)) heap' (d_alive s ∪ {[h]}) (d_loop s) (h + 3), [ESubscribed k true h])
    end
  else Ok (DState (<[k := Joint (j_ext j ++ [h]) (j_buf j)]> (d_mine s)) heap (d_alive s ∪ {[h]}) (d_loop s) (h + 3), [ESubscribed k false h]).

Fixpoint erase (h : N) (l : list N) : option (list N) :=
  match l with
  | [] => None
  | x :: l' => if x =? h then Some l' else option_map (cons x) (erase h l')
  end.

(** subscription.cpp 90-103 *)
Definition forget (s : dstate) (k : N) (internal : bool) (h : N) : res (dstate * list devent) :=
  match d_mine s !! k with
  | None => Crash
  | Some j =>
    match d_heap s !! j_buf j with
    | None => Crash
    | Some buf =>
        let ext := if internal then Some (j_ext j) else erase h (j_ext j) in
        let int := if internal then erase h (b_elems buf) else Some (b_elems buf) in
        match ext, int with
        | Some ext, Some int =>
            let done := match ext, int with [], [] => true | _, _ => false end in
            Ok (DState (if done then delete k (d_mine s) else <[k := Joint ext (j_buf j)]> (d_mine s))
                       (if done then delete (j_buf j) (d_heap s) else <[j_buf j := Buffer int (b_cap buf)]> (d_heap s))
                       (d_alive s ∖ {[h]}) (d_loop s) (d_next s), [EForgot k h])
        | _, _ => AssertFail                                             (* :99 *)
        end
    end
  end.

(** supervisor.h 449-456, delivery.cpp 39-46 *)
Definition start (s : dstate) (k : N) : res (dstate * list devent) :=
  match d_loop s, d_mine s !! k with
  | None, Some j =>
      match d_heap s !! j_buf j with
      | None => Crash
      | Some buf => Ok (DState (d_mine s) (d_heap s) (d_alive s) (Some (Loop k (j_buf j) 0 (length (b_elems buf)))) (d_next s), EStart k :: (EForward <$> j_ext j))
      end
  | _, _ => Ok (s, [])
  end.

(** delivery.cpp 47-49 *)
Definition next (s : dstate) : res (dstate * list devent) :=
  match d_loop s with
  | None => Ok (s, [])
  | Some (Loop k b i e) =>
      if Nat.eqb i e then Ok (DState (d_mine s) (d_heap s) (d_alive s) None (d_next s), [EDone k])
      else match d_heap s !! b with
      | None => Crash
      | Some buf =>
          match b_elems buf !! i with
          | None => Crash
          | Some h => if decide (h ∈ d_alive s) then Ok (DState (d_mine s) (d_heap s) (d_alive s) (Some (Loop k b (S i) e)) (d_next s), [ECall h]) else Crash
          end
      end
  end.

Definition dstep (s : dstate) (o : dop) : res (dstate * list devent) :=
  match o with
  | DSub k internal => materialize s k internal
  | DForget k internal h => forget s k internal h
  | DStart k => start s k
  | DNext => next s
  end.
End model.
