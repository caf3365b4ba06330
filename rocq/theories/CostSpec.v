(** Vocabulary of C63: how many messages there can be. *)
From stdpp Require Import base list gmap.
From Verif Require Import Base Prog ActorModel NetModel.
Open Scope nat_scope.

Definition count {A} (f : A -> bool) (l : list A) : nat := length (filter (fun x => f x = true) l).

(** A link request. *)
Definition is_link (x : aev) : bool := match x with EvLink _ _ _ => true | _ => false end.
(** Messages to the server [a]: requests, notifications, answers to unlink requests. *)
Definition links_to (a : N) (x : aev) : bool := match x with EvLink b _ _ => bool_decide (b = a) | _ => false end.
Definition says_to_server (a : N) (x : aev) : bool :=
  match x with EvLink b _ _ | EvNotify b | EvUnlinkReply b => bool_decide (b = a) | _ => false end.
(** Messages to the client [c]: answers to link requests, unlink requests. *)
Definition asked_by (c : N) (x : aev) : bool := match x with EvLinkReq b _ _ => bool_decide (b = c) | _ => false end.
Definition says_to_client (c : N) (x : aev) : bool :=
  match x with EvLinkAns b _ _ | EvUnlinkReq b _ => bool_decide (b = c) | _ => false end.
(** An event which is a message to another actor. *)
Definition says (x : aev) : bool :=
  match x with EvLink _ _ _ | EvNotify _ | EvUnlinkReply _ | EvLinkAns _ _ _ | EvUnlinkReq _ _ => true | _ => false end.

(** The actions of configure() which are still to come. *)
Definition plugs : list plug := [PRs; PRg; PLc; PLs; PLife; PSt].
Definition to_configure (cfg : plug -> list uact) (s : astore) : nat := sum_list_with (fun p => if x_conf s p then 0 else length (cfg p)) plugs.
Definition config_size (cfg : plug -> list uact) : nat := sum_list_with (fun p => length (cfg p)) plugs.
(** What may cause a link besides configure(): user code, and the address of a
    discovered name. *)
Definition credit (o : aop) : nat := match o with OUser _ | OResp _ (RpAddr _) => 1 | _ => 0 end.
Definition ncredit (o : nop) : nat := match o with NLocal _ o => credit o | _ => 0 end.
(** What is asked for by creating actors and by user code. *)
Definition ncost (cfg : N -> plug -> list uact) (o : nop) : nat := match o with NNew n => config_size (cfg n) | _ => ncredit o end.
Definition asked_for (cfg : N -> plug -> list uact) (ops : list nop) : nat := sum_list_with (ncost cfg) ops.

Section deliveries.
Context (cfg : N -> plug -> list uact) (ra : N) (unl : N -> bool).
(** The link messages taken out of the channels by [ops]: sender and receiver of each. *)
Definition taken (w : net) (o : nop) : list (N * N) := match o with NDeliver p n => match w_ch w p n with [] => [] | _ :: _ => [(p, n)] end | _ => [] end.
Fixpoint deliveries (w : net) (ops : list nop) : list (N * N) :=
  match ops with
  | [] => []
  | o :: r => taken w o ++ match nstep cfg ra unl w o with Ok (w', _) => deliveries w' r | _ => [] end
  end.
End deliveries.
