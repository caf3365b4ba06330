(** Vocabulary of C80. *)
From stdpp Require Import base list gmap.
From Verif Require Import Base ContextModel.
Open Scope N_scope.

(** What the language sees to anyhow: actors are new objects; the context is not used once
    it is destroyed. *)
Definition fresh_actor (s : ctx) (a : N) : Prop := c_ptr s !! a = None /\ forall th, at_pc s th <> PRoot a /\ at_pc s th <> PRootSet a.
Definition lawful (s : ctx) (o : xop) : Prop :=
  c_dead s = false /\ match o with OpRoot _ a | OpChild _ _ a => fresh_actor s a | OpDestroy => False | _ => True end.

(** No thread is busy with the context. *)
Definition calm_threads (s : ctx) : Prop := forall th, at_pc s th = PIdle.
(** Some supervisor is at work. *)
Definition has_active (s : ctx) : Prop := exists a, active s a = true.
(** The root supervisor is created while nobody else uses the context, and users ask for the
    stringifier at such a time or when some supervisor is at work. *)
Definition root_first (s : ctx) (o : xop) : Prop :=
  match o with OpRoot _ _ => calm_threads s | OpUser _ => calm_threads s \/ has_active s | _ => True end.
Definition good_use (s : ctx) (o : xop) : Prop := lawful s o /\ root_first s o.

Definition made (ev : list xev) : list N := omap (fun e => match e with EMade o => Some o | _ => None end) ev.
