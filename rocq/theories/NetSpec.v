(** Vocabulary of C57: rules of use for actors which link to each other, and what is said
    about them. *)
From stdpp Require Import base list gmap.
From Verif Require Import Base Prog ActorModel ActorSpec ActorSafeSpec NetModel.
Open Scope N_scope.

(** The requests whose answers are link messages. *)
Definition link_query (q : query) : bool := match q with QLink _ | QUnlink _ => true | _ => false end.
(** An actor links to itself. *)
Definition itself (n : N) (x : aev) : bool := match x with EvLink a _ _ => bool_decide (a = n) | _ => false end.
Section rule.
Context (cfg : N -> plug -> list uact) (ra : N) (unl : N -> bool).
Definition no_self (n : N) (s : astore) (o : aop) : Prop :=
  match astep (cfg n) ra (unl n) s o with Ok (_, e) => Forall (fun x => itself n x = false) e | _ => True end.
(** The rules of ActorSafeSpec.v for what an actor does by itself; in addition, links are
    not asked for during the shutdown, link and unlink requests do not time out, and
    nobody links to itself.  For link messages there is one rule: the answer to a link
    request comes, as long as the request is open, while the actor initializes (or has no
    init request). *)
Definition nrule (w : net) (o : nop) : Prop :=
  match o with
  | NNew _ => True
  | NLocal n o =>
      match w_act w !! n with
      | Some nd =>
          plain (w_s nd) o = true ->
          prudent ra (w_s nd) o /\ no_self n (w_s nd) o /\
          match o with
          | OUser (ULink _ _) => rank (x_st (w_s nd)) < rank AShuttingDown
          | OTimeout id => match x_pend (w_s nd) !! id with Some q => link_query q = false | None => True end
          | _ => True
          end
      | None => True
      end
  | NDeliver p n =>
      match w_act w !! n, w_ch w p n with
      | Some nd, m :: _ =>
          no_self n (w_s nd) (receive p m) /\
          match m with
          | WLinkAns id _ => match x_pend (w_s nd) !! id with Some q => may_answer (w_s nd) q | None => True end
          | _ => True
          end
      | _, _ => True
      end
  end.
Global Instance no_self_dec n s o : Decision (no_self n s o).
Proof. unfold no_self. destruct (astep _ _ _ _ _) as [[? ?]| |]; apply _. Defined.
Global Instance nrule_dec w o : Decision (nrule w o).
Proof. destruct o as [n|n o|p n]; cbn; repeat case_match; apply _. Defined.
End rule.

(** The client was told that it is linked, and neither side of it has ended the link. *)
Definition linked_to (a : N) : list aev -> Prop :=
  since (eq (EvLinkResp a true)) (fun x => x = EvLinkResp a false \/ x = EvNotify a \/ x = EvUnlinkReply a).
(** The trace of an actor; those which do not exist have done nothing. *)
Definition trace (w : net) (n : N) : list aev := match w_act w !! n with Some nd => w_ev nd | None => [] end.
Definition status (w : net) (n : N) : astate := state_of (trace w n).
(** The names are given back, or no promise of a name had to be withdrawn. *)
Definition names_back (ev : list aev) : Prop := (forall d, EvCancel d ∉ ev) \/ EvShutVote PRg true ∈ ev.
(** Nothing is under way between the actors. *)
Definition quiet (w : net) : Prop := forall p n, is_Some (w_act w !! n) -> w_ch w p n = [].
(** The actor [n] is not linked with anybody, in its own eyes. *)
Definition unlinked (w : net) (n : N) : Prop := forall a, ~ linked_to a (trace w n) /\ ~ linked a (trace w n).
(** Only the last subscription is left: when it is gone, the actor is shut down. *)
Definition finishes (cfg : N -> plug -> list uact) (ra : N) (unl : N -> bool) (w : net) (n : N) : Prop :=
  exists w' e, nstep cfg ra unl w (NLocal n OUnsubscribed) = Ok (w', e) /\ status w' n = AShutDown.
(** An actor receives a link message. *)
Definition takes (w : net) (o : nop) : Prop := match o with NDeliver p n => is_Some (w_act w !! n) /\ w_ch w p n <> [] | _ => False end.
