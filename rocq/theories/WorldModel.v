(** Model of a tree of supervisors whose other children are actors which link to each other,
    also across supervisors.

    Code: everything cited in TreeModel.v and NetModel.v, and where they meet, as in
    SystemModel.v: src/rotor/plugin/init_shutdown.cpp 45-67, src/rotor/actor_base.cpp 35-46,
    96-102, 121-144, src/rotor/plugin/link_client.cpp 59-90 and 115-122,
    src/rotor/plugin/registry.cpp 107-116, src/rotor/plugin/child_manager.cpp 178-181.

    Child [c] of the supervisor [n] is a supervisor if [sup_at n c] says so, which is any
    function, and the node [c :: n] of the tree then; otherwise it is the actor [who n c] of
    the net.  As in SystemModel.v an actor gets its requests when its supervisor's message is
    delivered, and its answers are what its supervisor gets.

    Simplifications: those of TreeModel.v and SystemModel.v. *)
From stdpp Require Import base list gmap countable.
From Verif Require Import Base Prog StateModel ChildMgrModel FamilyModel ActorModel NetModel SystemModel TreeModel.
Open Scope N_scope.

(** Each place of the tree has a number of its own. *)
Definition who (n : list N) (c : N) : N := Npos (encode (n, c)).
Definition whose (k : N) : option (list N * N) := match k with N0 => None | Npos p => decode p end.

Record world := World { z_t : tstate; z_w : net }.
Inductive zop :=
| ZTree (o : top)                    (* supervisors *)
| ZNet (o : nop).                    (* actors among themselves, and their users *)

(** What an actor tells its supervisor. *)
Definition told_op (k : N) (x : aev) : option top :=
  match whose k with
  | Some (n, c) => match tells c x with Some o => Some (TOp n o) | None => None end
  | None => None
  end.

Section model.
Context (pol : list N -> spolicy) (sync : list N -> bool) (sup_at : list N -> N -> bool).
Context (cfg : N -> plug -> list uact) (ra : N) (unl : N -> bool).

Definition zact (z : world) (o : nop) : res (world * list (N * aev)) :=
  rbind (NetModel.nstep cfg ra unl (z_w z) o) (fun '(w, e) =>
  rbind (run (tstep pol sync) (z_t z) (omap (fun '(k, x) => told_op k x) e)) (fun '(t, _) => Ok (World t w, e))).

(** Children come to life, child_manager.cpp 178-181. *)
Definition births (z : world) (n : list N) (l : list N) : res world :=
  rbind (run (tstep pol sync) (z_t z) (TAttach n <$> List.filter (sup_at n) l)) (fun '(t, _) =>
  rbind (run (NetModel.nstep cfg ra unl) (z_w z) (NNew <$> (who n <$> List.filter (fun c => negb (sup_at n c)) l))) (fun '(w, _) => Ok (World t w))).

Definition zstep (z : world) (o : zop) : res (world * list (N * aev)) :=
  match o with
  | ZTree (TAttach _ _) => Ok (z, [])
  | ZTree (TOp n fo) =>
      match z_t z !! n with
      | Some nd =>
          if by_child fo then Ok (z, [])
          else
            rbind (tstep pol sync (z_t z) (TOp n fo)) (fun '(t, ce) =>
            rbind (births (World t (z_w z)) n (born ce)) (fun z1 =>
              match handed (n_fam nd) fo with
              | Some (c, a) => if sup_at n c then Ok (z1, []) else zact z1 (NLocal (who n c) a)
              | None => Ok (z1, [])
              end))
      | None => Ok (z, [])
      end
  | ZTree o => rbind (tstep pol sync (z_t z) o) (fun '(t, _) => Ok (World t (z_w z), []))
  | ZNet o => if by_sup o then Ok (z, []) else zact z o
  end.
Definition zinit : world := World tinit ninit.
End model.
