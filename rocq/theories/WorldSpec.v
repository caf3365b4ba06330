(** Vocabulary of C62: rules of use for a tree of supervisors with actors. *)
From stdpp Require Import base list gmap.
From Verif Require Import Base Prog StateModel ChildMgrModel ChildMgrSpec FamilyModel FamilySpec ActorModel ActorSpec ActorSafeSpec NetModel NetSpec SystemModel SystemSpec TreeModel TreeSpec WorldModel.
Open Scope N_scope.

Section rule.
Context (pol : list N -> spolicy) (sync : list N -> bool) (sup_at : list N -> N -> bool).
Context (cfg : N -> plug -> list uact) (ra : N) (unl : N -> bool).
(** The rules of both models, and each actor answers its init request in one way. *)
Definition zrule (z : world) (o : zop) : Prop :=
  match o with
  | ZTree o => tidy (z_t z) o /\
      match o with
      | TOp n fo =>
          match z_t z !! n with
          | Some nd =>
              match handed (n_fam nd) fo with
              | Some (c, a) => if sup_at n c then True else nrule cfg ra unl (z_w z) (NLocal (who n c) a)
              | None => True
              end
          | None => True
          end
      | _ => True
      end
  | ZNet o => nrule cfg ra unl (z_w z) o
  end /\
  match zstep pol sync sup_at cfg ra unl z o with
  | Ok (z', _) => map_Forall (fun _ nd => answers_once (w_ev nd)) (w_act (z_w z'))
  | _ => True
  end.
Global Instance zrule_dec z o : Decision (zrule z o).
Proof. unfold zrule. destruct o as [o|o]; apply and_dec; [apply and_dec; [apply _|]; destruct o; repeat case_match; apply _|..]; repeat case_match; apply _. Defined.
End rule.

(** The actor [who n c] exists. *)
Definition actor_at (sup_at : list N -> N -> bool) (t : tstate) (n : list N) (c : N) : Prop :=
  sup_at n c = false /\ exists nd, t !! n = Some nd /\ ECreated c ∈ n_ev nd.
(** The supervisor has agreed to end, or it waits and has asked everybody. *)
Definition asked_all (nd : node) : Prop :=
  EVoteShutdown true ∈ n_ev nd \/ (settled (n_fam nd) /\ exists ev1 b ev2, n_ev nd = ev1 ++ EVoteShutdown b :: ev2 /\ forall c, ECreated c ∉ ev2).
