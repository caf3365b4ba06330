(** Vocabulary of C68. *)
From stdpp Require Import base list gmap.
From Verif Require Import Base ReplyMapModel.
Open Scope N_scope.

(** An actor which may still ask for things. *)
Definition asks (s : rstate) (a : N) : Prop := a ∈ r_kids s /\ a ∉ r_ended s /\ r_down s = false.
(** A request may be sent when none with the same type of response was sent for the first
    time by this actor since it was built. *)
Definition in_turn (s : rstate) (b : builder) : Prop := asks s (b_own b) /\ (b_inst b = true -> mapped s (b_own b) (b_ty b) = None).
Definition rok (s : rstate) (o : rop) : Prop :=
  match o with
  | OChild a => a ∉ r_seen s /\ r_down s = false
  | OBuild a ty => asks s a
  | OSend b => forall x, r_bld s !! b = Some x -> in_turn s x
  | OEnd a => a ∈ r_kids s /\ a <> 0 /\ r_down s = false
  | ODown => r_down s = true \/ r_kids s = {[0]}
  | OConf => True
  end.
(** The same without the order of sending. *)
Definition rfree (s : rstate) (o : rop) : Prop :=
  match o with OSend b => forall x, r_bld s !! b = Some x -> asks s (b_own x) | _ => rok s o end.
Definition confs (q : list qmsg) : list info := omap (fun m => match m with QConf i => Some i | QPlug => None end) q.
Definition removed (ev : list revt) : list N := omap (fun e => match e with ERemoved a => Some a | _ => None end) ev.
Definition subbed (ev : list revt) : list info := omap (fun e => match e with ESub i => Some i | _ => None end) ev.
Definition confirmed (ev : list revt) : list info := omap (fun e => match e with EConf i => Some i | _ => None end) ev.
