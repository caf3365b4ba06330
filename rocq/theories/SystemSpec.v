(** Vocabulary of C61: rules of use for a system. *)
From stdpp Require Import base list gmap.
From Verif Require Import Base Prog StateModel ChildMgrModel ChildMgrSpec FamilyModel FamilySpec ActorModel ActorSpec ActorSafeSpec NetModel NetSpec SystemModel.
Open Scope N_scope.

(** An actor which refused its init request does not become initialized later on
    (C36_failed_refuted shows that it can). *)
Definition refused (x : aev) : bool := match x with EvInitErr _ => true | _ => false end.
Definition answers_once (tr : list aev) : Prop := EvState AInitializing AInitialized ∉ tr \/ Forall (fun x => refused x = false) tr.

Section rule.
Context (hp : bool) (policy : spolicy) (sync : bool).
Context (cfg : N -> plug -> list uact) (ra : N) (unl : N -> bool).
(** The rules of both models, and each actor answers its init request in one way. *)
Definition yrule (y : sys) (o : yop) : Prop :=
  match o with
  | YFam o => orderly (y_f y) o /\ match handed (y_f y) o with Some (c, a) => nrule cfg ra unl (y_w y) (NLocal c a) | None => True end
  | YNet o => nrule cfg ra unl (y_w y) o
  end /\
  match ystep hp policy sync cfg ra unl y o with
  | Ok (y', _) => map_Forall (fun _ nd => answers_once (w_ev nd)) (w_act (y_w y'))
  | _ => True
  end.
Global Instance answers_once_dec tr : Decision (answers_once tr).
Proof. unfold answers_once. apply _. Defined.
Global Instance yrule_dec y o : Decision (yrule y o).
Proof. unfold yrule. destruct o as [o|o]; cbn [ystep]; apply and_dec; repeat case_match; apply _. Defined.
End rule.

Definition sup_trace (ev : list yev) : list cevent := omap (fun x => match x with YSup e => Some e | _ => None end) ev.
Definition act_trace (ev : list yev) : list (N * aev) := omap (fun x => match x with YAct n e => Some (n, e) | _ => None end) ev.
