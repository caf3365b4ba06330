(** Model of a tree of supervisors: a child of a supervisor may itself be a
    supervisor with children.

    Code: everything cited in FamilyModel.v and ChildMgrModel.v; src/rotor/supervisor.cpp
    76-88 (do_shutdown of a supervisor sends the trigger to the parent),
    src/rotor/plugin/init_shutdown.cpp 45-73, src/rotor/plugin/child_manager.cpp 93-166
    and 255-310 (the answer to the init request of the supervisor),
    src/rotor/actor_base.cpp 96-144.

    A node of the tree is a supervisor, and its name is the way to it: [] is the root, and
    [c :: n] is the child [c] of the supervisor [n].  Each node is the model of
    FamilyModel.v, so child [c] of a node has two descriptions if it is a supervisor: the
    record of the child at its parent, and the state of its own child manager.  The
    operations below keep them together:
    - when [c] handles the init request or the shutdown request of its parent, the
      supervisor [c :: n] does (FParentInit, FParentShutdown);
    - when the child manager of [c :: n] answers the init request with an error, or calls
      do_shutdown, child [c] of [n] does;
    - [c :: n] is initialized, started and shut down when child [c] is.
    For each node its operations and events are recorded (ghost state).

    Simplifications, besides those of FamilyModel.v:
    - the shutdown of a child supervisor ends when its child manager has left and its
      handlers are gone ([0] in [f_bye]); the message [MBye c] at its parent means
      nothing for it;
    - a node does not need to process its messages in any order with respect to other
      nodes, also if both are in the same locality (more behaviours than the code has);
    - a child manager which is not asked to agree to the initialization of its supervisor
      is asked when the supervisor is initialized (init_shutdown asks after all other
      plugins: actor_base.cpp 253-270). *)
From stdpp Require Import base list gmap.
From Verif Require Import Base ChildMgrModel FamilyModel.
Open Scope N_scope.

Record node := Node { n_fam : fstate; n_ops : list fop; n_ev : list cevent }.
Definition tstate := gmap (list N) node.

Inductive top :=
| TOp (n : list N) (o : fop)           (* an operation of one supervisor and its plain children *)
| TAttach (n : list N) (c : N)         (* the child just created is a supervisor *)
| TInited (n : list N) (c : N)         (* init_finish of the child supervisor *)
| TStarted (n : list N) (c : N)
| TDone (n : list N) (c : N).          (* shutdown_finish of the child supervisor *)

Section model.
Context (pol : list N -> spolicy) (sync : list N -> bool).

Definition hp (n : list N) : bool := match n with [] => false | _ => true end.
Definition nstep (n : list N) := fstep (hp n) (pol n) (sync n).

(** One supervisor makes a step. *)
Definition local (t : tstate) (n : list N) (o : fop) : res (tstate * list cevent) :=
  match t !! n with
  | None => Ok (t, [])
  | Some nd => rbind (nstep n (n_fam nd) o) (fun '(s, e) => Ok (<[n := Node s (n_ops nd ++ [o]) (n_ev nd ++ e)]> t, e))
  end.

(** What a child does with a message, init_shutdown.cpp 45-67. *)
Definition handled (s : fstate) (c : N) (m : fmsg) : option (N * fop) :=
  if decide (c ∈ f_bye s) then None
  else match m with
  | MInitReq _ => Some (c, FParentInit)
  | MShutReq _ => Some (c, FParentShutdown)
  | _ => None
  end.
Definition downcall (s : fstate) (o : fop) : option (N * fop) :=
  match o with
  | FDeliver _ _ _ _ _ _ _ =>
      match f_q s with
      | (MInitReq c | MShutReq c) as m :: _ => if (c =? 0) || bool_decide (c ∈ f_foreign s) then None else handled s c m
      | _ => None
      end
  | FChild c _ _ => match downl s c with m :: _ => handled s c m | [] => None end
  | _ => None
  end.
(** What the parent learns. *)
Definition upcall (t : tstate) (n : list N) (e : cevent) : res (tstate * list cevent) :=
  match n, e with
  | c :: p, ESelfShutdown => local t p (FShutdown c)
  | c :: p, EInitError => local t p (FChildInit c true)
  | _, _ => Ok (t, [])
  end.
Fixpoint upcalls (t : tstate) (n : list N) (e : list cevent) : res tstate :=
  match e with
  | [] => Ok t
  | x :: e' => rbind (upcall t n x) (fun '(t1, _) => upcalls t1 n e')
  end.

(** Operations which belong to two nodes. *)
Definition shared (t : tstate) (n : list N) (o : fop) : bool :=
  match o with
  | FParentInit | FParentShutdown => true
  | FInitialized | FStarted | FShutDown => hp n
  | FChildInit c _ | FChildStart c | FChildDone c => bool_decide (is_Some (t !! (c :: n)))
  | _ => false
  end.
(** child_manager.cpp 364 *)
Definition ready (s : fstate) (o : fop) : bool :=
  match o with FInitialized => handle_init (f_cm s) | _ => true end.

Definition both (t : tstate) (n : list N) (c : N) (oc on : fop) : res (tstate * list cevent) :=
  rbind (local t (c :: n) oc) (fun '(t1, _) => local t1 n on).

Definition tstep (t : tstate) (o : top) : res (tstate * list cevent) :=
  match o with
  | TOp n o =>
      match t !! n with
      | None => Ok (t, [])
      | Some nd =>
          if shared t n o || negb (ready (n_fam nd) o) then Ok (t, [])
          else rbind (local t n o) (fun '(t1, e) =>
            rbind (match downcall (n_fam nd) o with Some (c, oc) => local t1 (c :: n) oc | None => Ok (t1, []) end) (fun '(t2, _) =>
            rbind (upcalls t2 n e) (fun t3 => Ok (t3, e))))
      end
  | TAttach n c =>
      match t !! n, t !! (c :: n) with
      | Some nd, None =>
          match child_ready (n_fam nd) c AInitializing with
          | Some ch =>
              if ch_initreq ch || bool_decide (c ∈ f_bye (n_fam nd)) then Ok (t, [])
              else Ok (<[c :: n := Node (finit true) [] []]> t, [])
          | None => Ok (t, [])
          end
      | _, _ => Ok (t, [])
      end
  | TInited n c =>
      match t !! (c :: n) with
      | Some m => if ready (n_fam m) FInitialized then both t n c FInitialized (FChildInit c false) else Ok (t, [])
      | None => Ok (t, [])
      end
  | TStarted n c => match t !! (c :: n) with Some m => both t n c FStarted (FChildStart c) | None => Ok (t, []) end
  | TDone n c =>
      match t !! n, t !! (c :: n) with
      | Some nd, Some m =>
          if decide (0 ∈ f_bye (n_fam m) /\ c ∈ f_bye (n_fam nd)) then both t n c FShutDown (FChildDone c) else Ok (t, [])
      | _, _ => Ok (t, [])
      end
  end.

Definition tinit : tstate := {[ [] := Node (finit false) [] [] ]}.
End model.
