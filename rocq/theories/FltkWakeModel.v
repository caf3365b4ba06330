(** Interleaving model of the FLTK backend's inbound protocol.

    Code: src/rotor/fltk/system_context_fltk.cpp 27 (queue_counter), 29-47
    (_callback), 49-58 (enqueue), src/rotor/fltk/supervisor_fltk.cpp 78-80 (enqueue).

    Every step is one atomic access to shared data.  [Fl::awake(cb, sup)] appends
    to FLTK's list of pending callbacks; the FLTK thread takes them in order, one
    at a time.  Contexts are numbered, the counter is one static variable for all
    of them (line 27).

    Simplifications: [boost::lockfree::queue] is a linearizable FIFO queue whose
    [push] always succeeds; the counter does not overflow; [Fl::awake] succeeds;
    the supervisor outlives its pending callbacks; [do_process] is one step and
    messages sent by handlers inside the locality are not represented. *)
From stdpp Require Import base list gmap.
From Verif Require Import Base.
Open Scope Z_scope.

(** Where the running callback is. *)
Inductive cpc :=
| CPop (fetched : nat)        (* 38-41 *)
| CProcess (fetched : nat)    (* 43 *)
| CSub (fetched : nat).       (* 44 *)
Global Instance cpc_eq_dec : EqDecision cpc.
Proof. solve_decision. Defined.

Record kstate := KState {
  k_inb : N -> list N;             (* inbound_queue of the root supervisor of every context *)
  k_queue : N -> list N;           (* its queue *)
  k_counter : Z;                   (* queue_counter *)
  k_enq : gmap N N;                (* threads which pushed (to this context) and did not count yet *)
  k_sched : list N;                (* pending awake callbacks *)
  k_run : option (N * cpc)         (* the running callback *)
}.
Definition kinit : kstate := KState (fun _ => []) (fun _ => []) 0 ∅ [] None.

Inductive kop :=
| KPush (t c m : N)
| KAdd (t : N)
| KStart                           (* FLTK calls the next pending callback *)
| KStep.                           (* a step of the running callback *)

Inductive kevent := KDispatched (c m : N).

Definition upd {A} (f : N -> A) (c : N) (v : A) : N -> A := fun k => if N.eqb k c then v else f k.

(** system_context_fltk.cpp:53 *)
Definition k_push (s : kstate) (t c m : N) : kstate :=
  match k_enq s !! t with
  | None => KState (upd (k_inb s) c (k_inb s c ++ [m])) (k_queue s) (k_counter s)
                   (<[t := c]> (k_enq s)) (k_sched s) (k_run s)
  | Some _ => s
  end.

(** system_context_fltk.cpp:54-56 *)
Definition k_add (s : kstate) (t : N) : kstate :=
  match k_enq s !! t with
  | Some c =>
      KState (k_inb s) (k_queue s) (k_counter s + 1) (delete t (k_enq s))
             (if k_counter s =? 0 then k_sched s ++ [c] else k_sched s) (k_run s)
  | None => s
  end.

Definition k_start (s : kstate) : kstate :=
  match k_run s, k_sched s with
  | None, c :: rest => KState (k_inb s) (k_queue s) (k_counter s) (k_enq s) rest (Some (c, CPop 0))
  | _, _ => s
  end.

(** system_context_fltk.cpp:35-46 *)
Definition k_step (s : kstate) : kstate * list kevent :=
  match k_run s with
  | None => (s, [])
  | Some (c, CPop n) =>
      match k_inb s c with
      | m :: rest =>
          (KState (upd (k_inb s) c rest) (upd (k_queue s) c (k_queue s c ++ [m])) (k_counter s)
                  (k_enq s) (k_sched s) (Some (c, CPop (S n))), [])
      | [] =>
          (KState (k_inb s) (k_queue s) (k_counter s) (k_enq s) (k_sched s)
                  (match n with O => None | S _ => Some (c, CProcess n) end), [])
      end
  | Some (c, CProcess n) =>
      (KState (k_inb s) (upd (k_queue s) c []) (k_counter s) (k_enq s) (k_sched s) (Some (c, CSub n)),
       KDispatched c <$> k_queue s c)
  | Some (c, CSub n) =>
      (KState (k_inb s) (k_queue s) (k_counter s - Z.of_nat n) (k_enq s) (k_sched s)
              (if k_counter s =? Z.of_nat n then None else Some (c, CPop 0)), [])
  end.

Definition kstep (s : kstate) (o : kop) : res (kstate * list kevent) :=
  match o with
  | KPush t c m => Ok (k_push s t c m, [])
  | KAdd t => Ok (k_add s t, [])
  | KStart => Ok (k_start s, [])
  | KStep => Ok (k_step s)
  end.
