(** C63: messages about links run out.  However actors start, time out, stop and answer
    each other, the number of link messages is bounded by what their users ask for. *)
From stdpp Require Import base list gmap.
From Verif Require Import Base Prog ActorModel ActorSpec ActorSafeSpec NetModel NetSpec CostSpec CostActor CostNet CostProofs.
Open Scope N_scope.

(** An actor asks for a link at most once for each action of configure(), for each action of
    user code later on, and for each address it discovers. *)
Theorem C63_links : forall cfg ra unl ops s ev, run (astep cfg ra unl) ainit ops = Ok (s, ev) ->
  (count is_link ev <= config_size cfg + sum_list_with credit ops)%nat.
Proof. exact arun_bound. Qed.
(** A client sends at most two messages for each link it asked for, a server at most two for
    each link request it received. *)
Theorem C63_client : forall cfg ra unl ops s ev a, run (astep cfg ra unl) ainit ops = Ok (s, ev) ->
  (count (says_to_server a) ev <= 2 * count (links_to a) ev)%nat.
Proof. intros * H. pose proof (reach_server_msgs False a s ev (ActorReach.arun_reach_any _ _ _ _ _ _ H)). lia. Qed.
Theorem C63_server : forall cfg ra unl ops s ev c, run (astep cfg ra unl) ainit ops = Ok (s, ev) ->
  (count (says_to_client c) ev <= 2 * count (asked_by c) ev)%nat.
Proof. intros * H. pose proof (reach_client_msgs False c s ev (ActorReach.arun_reach_any _ _ _ _ _ _ H)). lia. Qed.
(** Among actors: at most four messages between a client and its server, in both
    directions, for each link ... *)
Theorem C63_pair : forall cfg ra unl ops w ev c s, run (nstep cfg ra unl) ninit ops = Ok (w, ev) ->
  (count (says_to_server s) (trace w c) + count (says_to_client c) (trace w s) <= 4 * count (links_to s) (trace w c))%nat.
Proof. intros * H. eapply pair_msgs. by eapply net_NI. Qed.
(** ... and so in all; what is received was sent ... *)
Theorem C63_net : forall cfg ra unl ops w ev, run (nstep cfg ra unl) ninit ops = Ok (w, ev) ->
  (length (deliveries cfg ra unl ninit ops) <= count (fun y => says y.2) ev)%nat /\
  (count (fun y => says y.2) ev <= 4 * count (fun y => is_link y.2) ev)%nat /\
  (count (fun y => is_link y.2) ev <= asked_for cfg ops)%nat.
Proof.
  intros * H. pose proof (net_msgs _ _ _ _ _ _ (net_NI _ _ _ _ _ _ H)) as [H1 H2]. apply nrun_pot in H. change (pot cfg (w_act ninit)) with 0%nat in H.
  unfold asked_for. split_and!; lia.
Qed.
(** ... so that, whatever happened before, the actors cannot go on with each other's
    messages for ever. *)
Theorem C63_stops : forall cfg ra unl ops ops' w ev w' ev', run (nstep cfg ra unl) ninit ops = Ok (w, ev) ->
  guarded (nstep cfg ra unl) takes w ops' -> run (nstep cfg ra unl) w ops' = Ok (w', ev') ->
  (length ops' + length (deliveries cfg ra unl ninit ops) <= 4 * asked_for cfg ops)%nat.
Proof. exact net_stops. Qed.

(** ** Examples *)
Definition two (n : N) (p : plug) : list uact := if bool_decide (n = 2) then match p with PLc => [ULink 1 false] | _ => [] end else [].
Definition up : list nop := [NNew 1; NNew 2; NLocal 1 OInitReq; NLocal 2 OInitReq; NDeliver 2 1; NDeliver 1 2; NLocal 1 OStart; NLocal 2 OStart].
Definition down : list nop := [NLocal 1 OShutReq; NDeliver 1 2; NDeliver 2 1; NLocal 1 OUnsubscribed].
(** One link, and all of the four messages: the bounds are exact. *)
Example C63_exact : match run (nstep two 0 (fun _ => true)) ninit (up ++ down) with
  | Ok (w, ev) => bool_decide (length (deliveries two 0 (fun _ => true) ninit (up ++ down)) = 4%nat) && bool_decide (asked_for two (up ++ down) = 1%nat) &&
      bool_decide (count (says_to_server 1) (trace w 2) = 2%nat) && bool_decide (count (says_to_client 2) (trace w 1) = 2%nat) &&
      bool_decide (count (links_to 1) (trace w 2) = 1%nat) && bool_decide (count (asked_by 2) (trace w 1) = 1%nat)
  | _ => false
  end = true.
Proof. vm_compute. reflexivity. Qed.
(** After the shutdown request there are two messages to take, and then none. *)
Example C63_rest : match run (nstep two 0 (fun _ => true)) ninit (up ++ [NLocal 1 OShutReq]) with
  | Ok (w, _) => match run (nstep two 0 (fun _ => true)) w [NDeliver 1 2; NDeliver 2 1] with
      | Ok (w', _) => bool_decide (deliveries two 0 (fun _ => true) w [NDeliver 1 2; NDeliver 2 1; NDeliver 1 2; NDeliver 2 1] = [(1, 2); (2, 1)])
      | _ => false end
  | _ => false
  end = true.
Proof. vm_compute. reflexivity. Qed.
(** Each action of the user counts: configure() with two of them, and one later on. *)
Definition three (p : plug) : list uact := match p with PLc => [ULink 1 false; ULink 2 false] | _ => [] end.
Example C63_counts : match run (astep three 0 true) ainit [OInitReq; OResp 1 RpOk; OResp 2 RpOk; OUser (ULink 3 false)] with
  | Ok (s, ev) => bool_decide (count is_link ev = 3%nat) && bool_decide (config_size three = 2%nat) | _ => false end = true.
Proof. vm_compute. reflexivity. Qed.

Print Assumptions C63_links.
Print Assumptions C63_client.
Print Assumptions C63_server.
Print Assumptions C63_pair.
Print Assumptions C63_net.
Print Assumptions C63_stops.
