(** When the plugins of an actor keep their assertions: the rules of use.  Every
    rule about steps is needed: ActorSafeProps.v has runs with only one imprudent
    step which fail. *)
From stdpp Require Import base list gmap.
From Verif Require Import Base Prog ActorModel ActorSpec.
Open Scope N_scope.

(** What is configured: links in the configuration of the link client, names in
    that of the registry plugin, none twice, and not the registry itself; nothing
    is released there. *)
Definition link_of (u : uact) : option N := match u with ULink a _ => Some a | _ => None end.
Definition reg_of (u : uact) : option N := match u with URegister n => Some n | _ => None end.
Definition disc_of (u : uact) : option N := match u with UDiscover n _ _ => Some n | _ => None end.
Definition release_act (u : uact) : Prop := match u with URelease _ => True | _ => False end.
Definition prudent_cfg (ra : N) (cfg : plug -> list uact) : Prop :=
  (Forall (fun u => ~ names_act u /\ ~ release_act u) (cfg PLc) /\ NoDup (omap link_of (cfg PLc)) /\ ra ∉ omap link_of (cfg PLc)) /\
  (Forall (fun u => ~ link_act u /\ ~ release_act u) (cfg PRg) /\ NoDup (omap reg_of (cfg PRg)) /\ NoDup (omap disc_of (cfg PRg))) /\
  Forall (fun u => ~ link_act u /\ ~ names_act u /\ ~ release_act u) (cfg PRs ++ cfg PSt).

(** The init request is held, and the actor initializes. *)
Definition in_init (s : astore) : Prop := x_st s = AInitializing /\ x_ireq s = true.
(** A response may come: to a link request, when the actor which holds the init
    request still initializes; to what the registry plugin has asked for, when in
    addition it holds that request. *)
Definition may_answer (s : astore) (q : query) : Prop :=
  match q with
  | QLink a =>
      (x_ireq s = true -> x_st s = AInitializing) /\
      match x_sv s !! a with Some (SRec (CbTask _) _) => in_init s | _ => True end
  | QReg _ | QDisc _ => in_init s
  | QUnlink _ => True
  end.
(** A new server: not linked, and not in the queue of those to be forgotten. *)
Definition new_server (s : astore) (a : N) : Prop := x_sv s !! a = None /\ a ∉ x_uq s.
Definition linkq (q : query) : bool := match q with QLink _ => true | _ => false end.
Definition prudent (ra : N) (s : astore) (o : aop) : Prop :=
  match o with
  | OUser u =>
      (* message handlers run after the init request came *)
      (x_st s = AInitializing -> x_conf s PLc = true) /\
      match u with
      | ULink a _ => new_server s a /\ a <> ra
      | URegister _ | UDiscover _ _ _ => False
      | URelease i => 0 < held s i /\ (x_st s = AInitializing -> x_ireq s = true)
      | UAcquire _ | UTrack => True
      end
  | OResp id r =>
      match x_pend s !! id with
      | Some q =>
          may_answer s q /\
          match q, r with
          (* the discovered server is not linked otherwise *)
          | QDisc _, RpAddr a => match x_al s !! a with None => new_server s a | _ => True end
          | _, _ => True
          end
      | None => True
      end
  | OLate => match x_late s with q :: _ => may_answer s q | [] => True end
  (* link requests do not time out during the shutdown, or shortly before *)
  | OTimeout id => match x_pend s !! id with Some (QLink _) => x_st s <> AShuttingDown | _ => True end
  | OShutReq => Forall (fun q => linkq q = false) (x_late s)
  (* a server does not ask to unlink before it has answered the link request *)
  | OUnlinkReq a => match x_sv s !! a with Some x => is_linking x = false | None => True end
  (* the unlink request to the client has not timed out *)
  | OUnlinkNotify c => match x_cl s !! c with Some (CUnlinking id) => is_Some (x_pend s !! id) | _ => True end
  | OSubscribed => x_st s = AInitializing -> x_conf s PSt = true -> x_ireq s = true
  | OInitReq | OLinkReq _ _ _ | OStart | OUnsubscribed => True
  end.
Global Instance in_init_dec s : Decision (in_init s).
Proof. unfold in_init. apply _. Defined.
Global Instance may_answer_dec s q : Decision (may_answer s q).
Proof. destruct q; cbn; repeat case_match; apply _. Defined.
Global Instance new_server_dec s a : Decision (new_server s a).
Proof. unfold new_server. apply _. Defined.
Global Instance prudent_dec ra s o : Decision (prudent ra s o).
Proof. destruct o; cbn; repeat case_match; apply _. Defined.
