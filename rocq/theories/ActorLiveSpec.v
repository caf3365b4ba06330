(** When the initialization of an actor makes progress: the rules of use beyond
    those of ActorSafeSpec.v. *)
From stdpp Require Import base list gmap.
From Verif Require Import Base Prog ActorModel ActorSpec ActorSafeSpec.
Open Scope N_scope.

(** The link for a discovered name is not yet answered. *)
Definition task_link (s : astore) (a : N) : Prop :=
  match x_sv s !! a with Some (SRec (CbTask _) (SLinking _)) => True | _ => False end.
(** Two names are not found at one address, unless the second is found before the
    link made for the first is answered; message handlers make no subscription
    which the starter waits for. *)
Definition patient (s : astore) (o : aop) : Prop :=
  match o with
  | OUser UTrack => False
  | OResp id (RpAddr a) =>
      match x_pend s !! id, x_al s !! a with Some (QDisc _), Some _ => task_link s a | _, _ => True end
  | _ => True
  end.
Global Instance task_link_dec s a : Decision (task_link s a).
Proof. unfold task_link. repeat case_match; apply _. Defined.
Global Instance patient_dec s o : Decision (patient s o).
Proof. destruct o; cbn; repeat case_match; apply _. Defined.
(** No failure of the initialization was reported. *)
Definition unfailed (ev : list aev) : Prop := forall p, EvInitErr p ∉ ev.
