(** C72: the messages of a whole world run out. *)
From stdpp Require Import base list gmap.
From Verif Require Import Base Prog StateModel ChildMgrModel FamilyModel FlowSpec TreeModel FlowTreeSpec ActorModel NetModel CostSpec SystemModel WorldModel WorldFlowSpec.
From Verif Require WorldFlowProofs WorldProps NetProps.
Open Scope nat_scope.

(** An actor calls do_shutdown on its own only when a server asks it to unlink, and once for
    each of these requests. *)
Theorem C72_actor : forall cfg ra unl s o s' e, astep cfg ra unl s o = Ok (s', e) ->
  count is_do e <= 1 /\ ((forall a, o <> OUnlinkReq a) -> count is_do e = 0).
Proof. intros * H. split; [by eapply WorldFlowProofs.actor_once|intros Ho; by eapply WorldFlowProofs.actor_shy]. Qed.

(** Every message which a supervisor or an actor takes is paid for: by a call from outside, by
    user code at an actor, or by a child which was born.  [K] bounds what one actor asks for in
    its configure().  What the actors tell their supervisors needs no payment, and a cascade of
    lost links, each of which makes an actor end, neither. *)
Theorem C72_moves : forall pol sync sup_at cfg ra unl K ops z ev, (forall k, config_size (cfg k) <= K) -> run (zstep pol sync sup_at cfg ra unl) zinit ops = Ok (z, ev) ->
  zmoves pol sync sup_at cfg ra unl zinit ops <= 40 + sum_list_with zout ops + 12 * sum_list_with zcredit ops + (64 + 12 * K) * tborn (z_t z).
Proof. intros * HK H. by apply (WorldFlowProofs.world_total pol sync sup_at cfg ra unl K HK ops z ev). Qed.
(** Every supervisor but the root is a child. *)
Theorem C72_sups : forall pol sync sup_at cfg ra unl K ops z ev, (forall k, config_size (cfg k) <= K) -> run (zstep pol sync sup_at cfg ra unl) zinit ops = Ok (z, ev) -> tsups (z_t z) <= 1 + tborn (z_t z).
Proof. intros * HK H. by apply (WorldFlowProofs.world_total pol sync sup_at cfg ra unl K HK ops z ev). Qed.
(** How often actors end because of lost links. *)
Theorem C72_cascades : forall pol sync sup_at cfg ra unl K ops z ev, (forall k, config_size (cfg k) <= K) -> run (zstep pol sync sup_at cfg ra unl) zinit ops = Ok (z, ev) ->
  count (fun y => is_do y.2) ev <= 4 * (sum_list_with zcredit ops + K * tborn (z_t z)).
Proof. intros * HK H. by apply (WorldFlowProofs.world_total pol sync sup_at cfg ra unl K HK ops z ev). Qed.

(** If every spawner has a limit, the number of messages is bounded by what the users did. *)
Theorem C72_limited : forall pol sync sup_at cfg ra unl K ops z ev, (forall k, config_size (cfg k) <= K) -> forallb zlimited ops = true -> run (zstep pol sync sup_at cfg ra unl) zinit ops = Ok (z, ev) ->
  tborn (z_t z) <= sum_list_with zoffspring ops /\
  zmoves pol sync sup_at cfg ra unl zinit ops <= 40 + sum_list_with (fun o => zout o + 12 * zcredit o + (64 + 12 * K) * zoffspring o) ops.
Proof. intros * HK. by apply (WorldFlowProofs.world_limited pol sync sup_at cfg ra unl K HK ops z ev). Qed.

(** From every reachable world only so many messages can follow unless somebody acts from
    outside or is born. *)
Theorem C72_stops : forall pol sync sup_at cfg ra unl K ops z ev ops' z' ev', (forall k, config_size (cfg k) <= K) ->
  run (zstep pol sync sup_at cfg ra unl) zinit ops = Ok (z, ev) -> run (zstep pol sync sup_at cfg ra unl) z ops' = Ok (z', ev') ->
  sum_list_with zout ops' = 0 -> sum_list_with zcredit ops' = 0 -> tborn (z_t z') = tborn (z_t z) ->
  zmoves pol sync sup_at cfg ra unl z ops' + zmoves pol sync sup_at cfg ra unl zinit ops <= 40 + sum_list_with zout ops + 12 * sum_list_with zcredit ops + (64 + 12 * K) * tborn (z_t z).
Proof. intros * HK. by apply (WorldFlowProofs.world_stops pol sync sup_at cfg ra unl K HK ops z ev ops' z' ev'). Qed.

(** The world of WorldProps.v: two supervisors, an actor of each, the one linked to the other.
    The lower supervisor is told to end, and the actor of the root follows. *)
Notation zs := (zstep (fun _ => PShutdownFailed) (fun _ => false) WorldProps.sup (NetProps.links_of WorldProps.downl) 0%N NetProps.yes).
Definition seen (ops : list zop) : nat * nat * nat * nat * nat :=
  match run zs zinit ops with
  | Ok (z, ev) => (zmoves (fun _ => PShutdownFailed) (fun _ => false) WorldProps.sup (NetProps.links_of WorldProps.downl) 0%N NetProps.yes zinit ops, tsups (z_t z), tborn (z_t z), count (fun y => is_do y.2) ev,
      40 + sum_list_with (fun o => zout o + 12 * zcredit o + (64 + 12 * 1) * zoffspring o) ops)
  | _ => (0, 0, 0, 0, 0)
  end.
Example C72_seen : seen WorldProps.cascade = (27, 2, 3, 1, 270) /\ forallb zlimited WorldProps.cascade = true.
Proof. split; vm_compute; done. Qed.
Example C72_size : forall k, config_size (NetProps.links_of WorldProps.downl k) <= 1.
Proof.
  intros k. unfold config_size, plugs, NetProps.links_of, WorldProps.downl. cbn [sum_list_with].
  cbn [omap list_omap length]. destruct (bool_decide _); cbn; lia.
Qed.
(** All that follows when the lower supervisor was told to end needs nobody from outside. *)
Definition rest : list zop := drop (length WorldProps.one) WorldProps.cascade.
Example C72_rest : match run zs zinit WorldProps.one with
  | Ok (z, _) => match run zs z rest with
                 | Ok (z', ev) => (zmoves (fun _ => PShutdownFailed) (fun _ => false) WorldProps.sup (NetProps.links_of WorldProps.downl) 0%N NetProps.yes z rest,
                                   sum_list_with zout rest, sum_list_with zcredit rest, tborn (z_t z') - tborn (z_t z), count (fun y => is_do y.2) ev)
                 | _ => (0, 0, 0, 0, 0)
                 end
  | _ => (0, 0, 0, 0, 0)
  end = (9, 0, 0, 0, 1).
Proof. vm_compute. done. Qed.

Print Assumptions C72_actor.
Print Assumptions C72_moves.
Print Assumptions C72_sups.
Print Assumptions C72_cascades.
Print Assumptions C72_limited.
Print Assumptions C72_stops.
