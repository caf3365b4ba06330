(** C01, C02 (inside the whole system), C03, C04, C07: the messaging core.
    [aloc] maps an address to its locality, [hsup] an actor to the address of
    its supervisor; both are arbitrary. *)
From stdpp Require Import base list gmap.
From Verif Require Import Base SubsModel SubsSpec KernelModel KernelSpec KernelProofs.

(** C01: what the subscribers in [d] have seen of the messages from [k] is an
    initial part of what [k] has sent there. *)
Theorem C01_fifo : forall aloc hsup ops w ev k d,
  run (kstep aloc hsup) kinit ops = Ok (w, ev) ->
  disps aloc k d ev `prefix_of` sents aloc k d ev.
Proof. exact fifo. Qed.

(** C03: nothing sent is lost or duplicated: it has been dispatched or it is
    under way, in this order; identities are unique. *)
Theorem C03_conservation : forall aloc hsup ops w ev k d,
  run (kstep aloc hsup) kinit ops = Ok (w, ev) ->
  sents aloc k d ev = disps aloc k d ev ++ pending aloc k d w.
Proof. exact conservation. Qed.

Theorem C03_unique : forall aloc hsup ops w ev,
  run (kstep aloc hsup) kinit ops = Ok (w, ev) ->
  NoDup (m_uid <$> omap sent_of ev).
Proof. exact uids_unique. Qed.

(** When all queues are empty everything sent has been dispatched. *)
Theorem C03_all_delivered : forall aloc hsup ops w ev k d,
  run (kstep aloc hsup) kinit ops = Ok (w, ev) ->
  (forall l, w_queue w l = []) -> (forall l, w_inb w l = []) ->
  disps aloc k d ev = sents aloc k d ev.
Proof. exact all_delivered. Qed.

(** No message is dispatched twice, in whatever localities. *)
Theorem C03_once : forall aloc hsup ops w ev,
  run (kstep aloc hsup) kinit ops = Ok (w, ev) ->
  NoDup (m_uid <$> omap (fun e => match e with EDisp _ m _ _ => Some m | _ => None end) ev).
Proof. exact disp_once. Qed.

(** What is dispatched was sent, and only the owner of the address dispatches. *)
Theorem C03_only_sent : forall aloc hsup ops w ev l m ext int,
  run (kstep aloc hsup) kinit ops = Ok (w, ev) ->
  In (EDisp l m ext int) ev -> In (ESent m) ev /\ aloc (m_addr m) = l.
Proof. exact dispatched_was_sent. Qed.

(** C02 in the whole system: a dispatch serves the subscriptions which are live
    at that moment: one call per foreign handler, then the own handlers. *)
Theorem C02_dispatch : forall aloc hsup ops w ev l w' m ext int e,
  run (kstep aloc hsup) kinit ops = Ok (w, ev) ->
  kstep aloc hsup w (ODispatch l) = Ok (w', EDisp l m ext int :: e) ->
  exists tr,
    run (sstep (addr_in aloc l) (actor_in aloc hsup l)) subs_init (omap (sub_op l) ops) = Ok (w_subs w l, tr) /\
    let live := live (addr_in aloc l) tr in
    view <$> ext = sview <$> List.filter (matching (actor_in aloc hsup l) (m_addr m) (m_type m) false) live /\
    view <$> int = sview <$> List.filter (matching (actor_in aloc hsup l) (m_addr m) (m_type m) true) live /\
    Forall2 (call_for hsup l m) ext e.
Proof. exact dispatch_exact. Qed.

(** C04: the second hops are, one for one and in order, the dispatches that ended
    with routing; each goes to the next address and goes no further. *)
Theorem C04_hops : forall aloc hsup ops w ev,
  run (kstep aloc hsup) kinit ops = Ok (w, ev) ->
  Forall2 hop_of (omap routed_end ev) (List.filter is_hop (omap sent_of ev)).
Proof. exact hops_match. Qed.

Theorem C04_once : forall aloc hsup ops w ev u,
  run (kstep aloc hsup) kinit ops = Ok (w, ev) -> length (hops u ev) <= 1.
Proof. exact hop_at_most_once. Qed.

(** The hop follows the dispatch of the original to its first address. *)
Theorem C04_after : forall aloc hsup ops w ev e1 m' e2,
  run (kstep aloc hsup) kinit ops = Ok (w, ev) ->
  ev = e1 ++ ESent m' :: e2 -> is_hop m' = true ->
  exists e0 l m, e1 = e0 ++ [EEnd l m true] /\ hop_of (l, m) m' /\
    exists ext int, In (EDisp l m ext int) e0.
Proof. exact (fun aloc hsup ops w ev e1 m' e2 H => reach_hops_after aloc hsup ops w ev H e1 m' e2). Qed.

(** A finished dispatch routes iff there is a next address, nobody keeps the
    message and nobody redirected it. *)
Theorem C04_routed_iff : forall aloc hsup w l kept w' e m rp rd,
  w_cur w l = Some (Cur m rp rd) -> kstep aloc hsup w (OEnd l kept) = Ok (w', e) ->
  (is_Some (m_next m) /\ kept = false /\ rd = false /\
    exists m', e = [EEnd l m true; ESent m'] /\ hop_of (l, m) m' /\ w_queue w' l = w_queue w l ++ [m']) \/
  ((m_next m = None \/ kept = true \/ rd = true) /\ e = [EEnd l m false] /\ w_queue w' l = w_queue w l).
Proof. exact routed_iff. Qed.

(** C07: [k] sent [m1], the response [r] and [m2] to locality [l], in this order
    and with anything in between; [f] is what the requester gets for [r].  Then
    [f] is the next message taken from the queue after [r], so that [m1] was
    taken before both and [m2] was not. *)
Theorem C07_response_order : forall aloc hsup ops w ev f l k r a m1 b c m2 d,
  run (kstep aloc hsup) kinit ops = Ok (w, ev) ->
  In (ESent f) ev -> m_src f = SFwd l -> m_root f = Some (m_uid r) ->
  sents aloc k l ev = a ++ m1 :: b ++ r :: c ++ m2 :: d ->
  exists p1 p2, pops l ev = p1 ++ r :: p2 /\
    (head p2 = Some f \/ (p2 = [] /\ head (w_queue w l) = Some f)) /\
    In m1 p1 /\ ~ In m2 p1.
Proof. exact response_order. Qed.

(** ** Non-vacuity *)
(** Locality of address [a] is [a / 10]; actor [x] has supervisor address [x]. *)
Definition xl (a : N) : N := (a / 10)%N.
Definition xs (a : N) : N := a.
Definition kev (ops : list kop) : list kevent :=
  match run (kstep xl xs) kinit ops with Ok (_, ev) => ev | _ => [] end.
Definition kok (ops : list kop) : bool :=
  match run (kstep xl xs) kinit ops with Ok _ => true | _ => false end.

(** Locality 1 sends two messages to locality 2 through the inbound queue; an
    outside thread interferes. *)
Definition ex_c01 : list kop :=
  [OSend 1 20 None 5 false; OExt 9 20 5; OSend 1 21 None 6 false; ODispatch 1; ODispatch 1;
   OPump 2; OPump 2; OPump 2; ODispatch 2; OEnd 2 false; ODispatch 2; OEnd 2 false; ODispatch 2; OEnd 2 false]%N.
Example C01_example : kok ex_c01 = true /\
  m_addr <$> disps xl (SLoc 1) 2 (kev ex_c01) = [20; 21]%N /\
  m_addr <$> sents xl (SLoc 1) 2 (kev ex_c01) = [20; 21]%N /\
  m_addr <$> omap (disp_at 2) (kev ex_c01) = [20; 20; 21]%N.
Proof. vm_compute. done. Qed.
Example C03_example : m_uid <$> disps xl (SLoc 1) 2 (kev (take 9 ex_c01)) = [] /\
  m_uid <$> sents xl (SLoc 1) 2 (kev (take 9 ex_c01)) = [0; 2]%N /\
  match run (kstep xl xs) kinit (take 9 ex_c01) with
  | Ok (w, _) => m_uid <$> pending xl (SLoc 1) 2 w = [0; 2]%N | _ => False end.
Proof. vm_compute. done. Qed.

(** One own and one foreign subscriber: the foreign one gets a call message in
    its own locality. *)
Definition ex_c02 : list kop :=
  [OSub 1 (Subscribe 11 5 10); OSub 1 (Subscribe 20 5 10); OSub 1 (Subscribe 11 6 10);
   OSend 1 10 None 5 false; ODispatch 1; OEnd 1 false; OPump 2; ODispatch 2]%N.
Example C02_dispatch_example : kok ex_c02 = true /\
  match List.filter (fun e => match e with EDisp _ _ _ _ => true | _ => false end) (kev ex_c02) with
  | [EDisp 1 _ ext int; EDisp 2 c _ _] =>
      h_actor <$> ext = [20]%N /\ h_actor <$> int = [11]%N /\ m_src c = SCall 1 /\ m_addr c = 20%N
  | _ => False
  end.
Proof. vm_compute. done. Qed.

(** Route: first address 10, then address 20 in another locality. *)
Definition ex_c04 : list kop :=
  [OSend 1 10 (Some 20) 5 false; ODispatch 1; OEnd 1 false; ODispatch 1; OPump 2; ODispatch 2; OEnd 2 false]%N.
Example C04_example : kok ex_c04 = true /\
  m_addr <$> hops 0 (kev ex_c04) = [20]%N /\ m_addr <$> omap (disp_at 2) (kev ex_c04) = [20]%N /\
  length (omap routed_end (kev ex_c04)) = 1.
Proof. vm_compute. done. Qed.
Definition ex_c04_kept : list kop :=
  [OSend 1 10 (Some 20) 5 false; ODispatch 1; OEnd 1 true]%N.
Example C04_example_kept : kok ex_c04_kept = true /\ hops 0 (kev ex_c04_kept) = [].
Proof. vm_compute. done. Qed.

(** A server in locality 2 sends m1, a response (to the imaginary address 10) and
    m2 to locality 1; a message of another sender waits between them. *)
Definition ex_c07 : list kop :=
  [OSend 2 11 None 5 false; OSend 2 10 None 6 true; OSend 2 11 None 5 false;
   ODispatch 2; ODispatch 2; ODispatch 2; OPump 1; OPump 1; OPump 1;
   ODispatch 1; OEnd 1 false; ODispatch 1; OForward 1 12; OEnd 1 false; ODispatch 1; OEnd 1 false;
   ODispatch 1; OEnd 1 false]%N.
Example C07_example : kok ex_c07 = true /\
  m_uid <$> pops 1 (kev ex_c07) = [0; 1; 3; 2]%N /\
  m_uid <$> sents xl (SLoc 2) 1 (kev ex_c07) = [0; 1; 2]%N.
Proof. vm_compute. done. Qed.

Print Assumptions C01_fifo.
Print Assumptions C03_conservation.
Print Assumptions C03_unique.
Print Assumptions C03_all_delivered.
Print Assumptions C03_once.
Print Assumptions C03_only_sent.
Print Assumptions C02_dispatch.
Print Assumptions C04_hops.
Print Assumptions C04_once.
Print Assumptions C04_after.
Print Assumptions C04_routed_iff.
Print Assumptions C07_response_order.
