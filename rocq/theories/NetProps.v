(** C57: several actors which link to each other. *)
From stdpp Require Import base list gmap.
From Verif Require Import Base Prog ActorModel ActorSpec ActorProps ActorSafeSpec ActorSafeProps NetModel NetSpec NetViews NetInv NetRun NetProofs NetEnds.
Open Scope N_scope.

(** ** No assertion fails.  Partial: the rules of [nrule] are needed, see below. *)
Theorem C57_safe_partial : forall cfg ra unl ops, (forall n, prudent_cfg ra (cfg n)) -> guarded (nstep cfg ra unl) (nrule cfg ra unl) ninit ops ->
  exists w ev, run (nstep cfg ra unl) ninit ops = Ok (w, ev).
Proof. intros * HC Hg. destruct (net_safe cfg ra unl HC ops Hg) as (w & ev & ? & _). eauto. Qed.

Definition reached (cfg : N -> plug -> list uact) (ra : N) (unl : N -> bool) (w : net) : Prop :=
  exists ops ev, guarded (nstep cfg ra unl) (nrule cfg ra unl) ninit ops /\ run (nstep cfg ra unl) ninit ops = Ok (w, ev).
Lemma reached_inv cfg ra unl w : (forall n, prudent_cfg ra (cfg n)) -> reached cfg ra unl w -> winv ra w.
Proof. intros HC (ops & ev & Hg & Hr). destruct (net_safe cfg ra unl HC ops Hg) as (w1 & ev1 & Hr1 & HV). congruence. Qed.

(** ** Whoever is told to be linked is a client of the server; none of them is shut down. *)
Theorem C57_agree : forall cfg ra unl w c s, (forall n, prudent_cfg ra (cfg n)) -> reached cfg ra unl w ->
  linked_to s (trace w c) -> linked c (trace w s) /\ status w s <> AShutDown /\ status w c <> AShutDown.
Proof. intros * HC HR. apply (links_agree ra). by eapply reached_inv. Qed.
(** When nothing is under way, both sides say the same. *)
Theorem C57_same : forall cfg ra unl w c s, (forall n, prudent_cfg ra (cfg n)) -> reached cfg ra unl w -> quiet w ->
  linked_to s (trace w c) <-> linked c (trace w s).
Proof. intros * HC HR. apply (links_same ra). by eapply reached_inv. Qed.

(** ** The end: when all actors are asked to shut down, and links never form a circle, then
    the links do not hold up anybody. *)
Theorem C57_all_down : forall cfg ra unl w, (forall n, prudent_cfg ra (cfg n)) -> reached cfg ra unl w -> quiet w ->
  (forall n, is_Some (w_act w !! n) -> status w n = AShuttingDown \/ status w n = AShutDown) ->
  (forall n, status w n = AShuttingDown -> (forall i, ~ owned i (trace w n)) /\ names_back (trace w n)) ->
  (exists h : N -> nat, forall c s p id, EvLink s p id ∈ trace w c -> (h c < h s)%nat) ->
  forall n, is_Some (w_act w !! n) -> unlinked w n /\ finishes cfg ra unl w n.
Proof.
  intros * HC HR HQ Hs Hb Hh n Hn. pose proof (reached_inv _ _ _ _ HC HR) as HV.
  apply last_one; auto; [intros Hd; by apply Hb|]. by apply (all_down ra).
Qed.
(** One server: its clients leave it when they have no clients themselves. *)
Theorem C57_server_down : forall cfg ra unl w n, (forall n, prudent_cfg ra (cfg n)) -> reached cfg ra unl w -> quiet w ->
  is_Some (w_act w !! n) -> status w n = AShuttingDown -> (exists b, EvState b AOperational ∈ trace w n) ->
  (forall i, ~ owned i (trace w n)) -> names_back (trace w n) ->
  (forall c p id, EvLink n p id ∈ trace w c -> forall a r q, EvLinkReq a r q ∉ trace w c) ->
  unlinked w n /\ finishes cfg ra unl w n.
Proof.
  intros * HC HR HQ Hn Hs Hop Ho Hc Hl. pose proof (reached_inv _ _ _ _ HC HR) as HV.
  apply last_one; auto. right. split; [done|]. by apply (server_down ra).
Qed.

(** Nobody sends who does not exist. *)
Lemma senders cfg ra unl ops w ev : run (nstep cfg ra unl) ninit ops = Ok (w, ev) -> forall p n, w_act w !! p = None -> w_ch w p n = [].
Proof.
  apply (run_inv (nstep cfg ra unl) (fun w => forall p n, w_act w !! p = None -> w_ch w p n = [])); [|done].
  clear. intros w o w' e HI. assert (HA : forall w n nd o w' e, (forall p n, w_act w !! p = None -> w_ch w p n = []) -> is_Some (w_act w !! n) -> nact cfg ra unl w n nd o = Ok (w', e) -> forall p n, w_act w' !! p = None -> w_ch w' p n = []).
  { clear. intros w n nd o w' e HI Hn. unfold nact. destruct (astep _ _ _ _ _) as [[s1 e1]| |]; cbn [rbind]; try done. intros [= <- <-] p d. cbn.
    intros [H1 H2]%lookup_insert_None. rewrite bool_decide_false by congruence. by apply HI. }
  assert (HT : forall p n m l, w_ch w p n = m :: l -> forall p0 n0, w_act (take_msg w p n m l) !! p0 = None -> w_ch (take_msg w p n m l) p0 n0 = []).
  { intros p n m l Em p0 n0 H. cbn in *. unfold upd2. case_bool_decide as Hb; [|by apply HI]. destruct Hb as [-> ->]. by rewrite HI in Em. }
  destruct o as [n|n o|p n]; cbn [nstep].
  - case_bool_decide; intros [= <- <-]; [done|]. intros p d. cbn. intros [? ?]%lookup_insert_None. by apply HI.
  - destruct (w_act w !! n) as [nd|] eqn:E; [|by intros [= <- <-]]. destruct (plain _ _); [|by intros [= <- <-]]. apply HA; [done|by eexists].
  - destruct (w_ch w p n) as [|m l] eqn:Em; [by intros [= <- <-]|]. destruct (w_act w !! n) as [nd|] eqn:E; [|intros [= <- <-]; by apply HT].
    apply HA; [by apply HT|by eexists].
Qed.
Definition actors (w : net) : list N := fst <$> map_to_list (w_act w).
Lemma actors_ok w n : is_Some (w_act w !! n) -> n ∈ actors w.
Proof. intros [nd H]. apply elem_of_list_fmap. exists (n, nd). split; [done|by apply elem_of_map_to_list]. Qed.
(** Nothing but the messages which are under way is needed for this: if no link request is
    open then each of them can be taken without a failure, there are at most so many of
    them, and when none is left the links are gone. *)
Theorem C57_ends : forall cfg ra unl w, (forall n, prudent_cfg ra (cfg n)) -> reached cfg ra unl w ->
  (forall n, is_Some (w_act w !! n) -> status w n = AShuttingDown \/ status w n = AShutDown) ->
  (forall n a, ~ link_open a (trace w n)) ->
  (forall n, status w n = AShuttingDown -> (forall i, ~ owned i (trace w n)) /\ names_back (trace w n)) ->
  (exists h : N -> nat, forall c s p id, EvLink s p id ∈ trace w c -> (h c < h s)%nat) ->
  exists k, forall ops, guarded (nstep cfg ra unl) takes w ops ->
    (length ops <= k)%nat /\ exists w' ev, run (nstep cfg ra unl) w ops = Ok (w', ev) /\
      ((exists o, takes w' o) \/ forall n, is_Some (w_act w' !! n) -> unlinked w' n /\ finishes cfg ra unl w' n).
Proof.
  intros * HC HR Hs Hl Hb [h Hh]. pose proof (reached_inv _ _ _ _ HC HR) as HV.
  assert (HE : ending ra (actors w) w).
  { split.
    - done.
    - intros n. split; [apply actors_ok|]. intros ([k nd] & -> & Hk%elem_of_map_to_list)%elem_of_list_fmap. by eexists.
    - destruct HR as (ops & ev & _ & Hr). by eapply senders.
    - intros n ([k nd] & -> & Hk%elem_of_map_to_list)%elem_of_list_fmap. cbn [fst]. rewrite <- (status_st _ _ HV). by destruct (Hs k) as [-> | ->]; [eexists|..].
    - intros n a id E. apply (Hl n a). apply (crun_open a _ _ (reach_lk _ a _ _ (a_reach (v_act _ _ HV n)))). eauto.
    - intros n Hn. rewrite <- (status_st _ _ HV) in Hn. destruct (Hb n Hn) as [H1 H2]. destruct (stuck_of _ _ HV n Hn H1 H2) as [H3 _]. split; [|done]. by apply (ActorProofs.reach_has_none _ _ _ (a_reach (v_act _ _ HV n))). }
  exists (loads (actors w) w). intros ops Hg. destruct (takes_run cfg ra unl HC (actors w) h ops w HE Hh Hg) as (Hlen & w' & ev & Hr & HE' & Hh'). split; [done|].
  exists w', ev. split; [done|]. destruct (quiet_dec (actors w) w') as [?|HQ]; [apply (e_dom _ _ _ HE')|apply (e_src _ _ _ HE')|by left|]. right. by eapply ending_done.
Qed.

(** ** Checking runs *)
Definition links_of (l : list (N * N * bool)) (n : N) (p : plug) : list uact :=
  match p with PLc => omap (fun '(c, s, o) => if bool_decide (c = n) then Some (ULink s o) else None) l | _ => [] end.
Definition yes (_ : N) : bool := true.
Lemma links_prudent l : NoDup (fst <$> l) -> 0 ∉ (fun x => snd (fst x)) <$> l -> forall n, prudent_cfg 0 (links_of l n).
Proof.
  intros Hd H0 n. split_and!; try (repeat constructor; fail); cbn.
  - apply Forall_forall. intros u ([[c s] o] & _ & Hu)%elem_of_list_omap. case_bool_decide; [|done]. injection Hu as <-. split; intros [].
  - assert (Hin : forall s, s ∈ omap link_of (omap (fun '(c, s, o) => if bool_decide (c = n) then Some (ULink s o) else None) l) -> (n, s) ∈ fst <$> l).
    { intros s (u & ([[c s'] o] & Hl & Hu)%elem_of_list_omap & Hs)%elem_of_list_omap. case_bool_decide; [|done]. injection Hu as <-. injection Hs as <-. subst c.
      apply elem_of_list_fmap. by exists (n, s', o). }
    induction l as [|[[c s] o] l IH]; cbn; [constructor|]. apply NoDup_cons in Hd as [Hd1 Hd2]. cbn in H0.
    assert (IH' : NoDup (omap link_of (omap (fun '(c, s, o) => if bool_decide (c = n) then Some (ULink s o) else None) l))).
    { apply IH; [done|intros Hx; apply H0; by right|]. intros x (u & ([[c' s'] o'] & Hl & Hu)%elem_of_list_omap & Hs)%elem_of_list_omap. case_bool_decide; [|done]. injection Hu as <-. injection Hs as <-. subst c'.
      apply elem_of_list_fmap. by exists (n, s', o'). }
    case_bool_decide as Hc; [|done]. cbn. constructor; [|done]. subst c. intros (u & ([[c' s'] o'] & Hl & Hu)%elem_of_list_omap & Hs)%elem_of_list_omap. case_bool_decide; [|done]. injection Hu as <-. injection Hs as <-. subst c'.
    apply Hd1. apply elem_of_list_fmap. by exists (n, s', o').
  - intros (u & ([[c' s'] o'] & Hl & Hu)%elem_of_list_omap & Hs)%elem_of_list_omap. case_bool_decide; [|done]. injection Hu as <-. injection Hs as ->. apply H0. apply elem_of_list_fmap. by exists (c', 0, o').
Qed.
Definition quietb (w : net) : bool := forallb (fun p => forallb (fun n => bool_decide (w_ch w p n = [])) (actors w)) (actors w).
Lemma quietb_ok w : (forall p n, w_act w !! p = None -> w_ch w p n = []) -> quietb w = true -> quiet w.
Proof.
  intros HI Hq p n Hn. destruct (w_act w !! p) as [nd|] eqn:E; [|by apply HI]. unfold quietb in Hq. rewrite forallb_forall in Hq.
  specialize (Hq p ltac:(apply elem_of_list_In, actors_ok; by eexists)). cbn in Hq. rewrite forallb_forall in Hq. specialize (Hq n ltac:(by apply elem_of_list_In, actors_ok)). by apply bool_decide_eq_true in Hq.
Qed.
(** All actors end; nothing is owned, and no discovery was cancelled. *)
Definition endingb (w : net) : bool :=
  forallb (fun n => bool_decide (status w n = AShuttingDown \/ status w n = AShutDown)) (actors w).
Definition freeb (w : net) : bool :=
  forallb (fun n => forallb (fun x => match x with EvAcquire _ | EvCancel _ => false | _ => true end) (trace w n)) (actors w).
Lemma endingb_ok w : endingb w = true -> forall n, is_Some (w_act w !! n) -> status w n = AShuttingDown \/ status w n = AShutDown.
Proof. unfold endingb. rewrite forallb_forall. intros H n Hn. specialize (H n ltac:(by apply elem_of_list_In, actors_ok)). by apply bool_decide_eq_true in H. Qed.
Lemma freeb_ev w n x : freeb w = true -> x ∈ trace w n -> match x with EvAcquire _ | EvCancel _ => False | _ => True end.
Proof.
  unfold freeb. rewrite forallb_forall. intros H Hx. unfold trace in Hx. destruct (w_act w !! n) as [nd|] eqn:E; [|by apply elem_of_nil in Hx].
  specialize (H n ltac:(apply elem_of_list_In, actors_ok; by eexists)). rewrite forallb_forall in H. unfold trace in H. rewrite E in H. specialize (H x ltac:(by apply elem_of_list_In)). by destruct x.
Qed.
Lemma freeb_ok w : freeb w = true -> (forall n i, ~ owned i (trace w n)) /\ (forall n d, EvCancel d ∉ trace w n).
Proof.
  intros H. split; [|intros n d Hd; by apply (freeb_ev _ _ _ H) in Hd]. intros n i. unfold owned. enough (count (EvAcquire i) (trace w n) = 0) by lia.
  assert (Hn : EvAcquire i ∉ trace w n) by (intros Hd; by apply (freeb_ev _ _ _ H) in Hd). induction (trace w n) as [|x tr IH]; [done|]. apply not_elem_of_cons in Hn as [H1 H2]. unfold count in *. rewrite filter_cons_False by congruence. by apply IH.
Qed.
Definition sinceb {E : Type} (up down : E -> bool) (tr : list E) : bool := foldl (fun b x => if up x then true else if down x then false else b) false tr.
Lemma sinceb_ok {E : Type} (up down : E -> bool) (U V : E -> Prop) tr : (forall x, up x = true -> U x) -> (forall x, down x = false -> ~ V x) -> sinceb up down tr = true -> since U V tr.
Proof.
  intros HU HV. unfold sinceb. induction tr as [|x tr IH] using rev_ind; [done|]. rewrite foldl_app. cbn. destruct (up x) eqn:Eu.
  - intros _. exists tr, x, []. split_and!; [done|auto|constructor].
  - destruct (down x) eqn:Ed; [done|]. intros (t1 & y & t2 & -> & Hy & Hf)%IH. exists t1, y, (t2 ++ [x]). split_and!; [by rewrite <- app_assoc|done|]. apply Forall_app. split; [done|]. by apply Forall_singleton, HV.
Qed.
Definition linkedb (c : N) : list aev -> bool :=
  sinceb (fun x => match x with EvLinkAns d _ LOk => bool_decide (d = c) | _ => false end) (fun x => bool_decide (x = EvUnlinkOk c \/ x = EvGotNotify c)).
Lemma linkedb_ok c tr : linkedb c tr = true -> linked c tr.
Proof.
  apply sinceb_ok; [|intros x; apply bool_decide_eq_false_1]. intros y. destruct y; try done. case_match; try done. intros ->%bool_decide_eq_true_1. by eexists.
Qed.
Definition linked_tob (a : N) : list aev -> bool :=
  sinceb (fun x => bool_decide (x = EvLinkResp a true)) (fun x => bool_decide (x = EvLinkResp a false \/ x = EvNotify a \/ x = EvUnlinkReply a)).
Lemma linked_tob_ok a tr : linked_tob a tr = true -> linked_to a tr.
Proof. apply sinceb_ok; [|intros x; apply bool_decide_eq_false_1]. intros x ->%bool_decide_eq_true_1. done. Qed.
(** No event of this kind. *)
Lemma none_of w n (f : aev -> bool) : forallb (fun x => negb (f x)) (trace w n) = true -> forall x, x ∈ trace w n -> f x = false.
Proof. rewrite forallb_forall. intros H x Hx. apply negb_true_iff, H. by apply elem_of_list_In. Qed.

Section checks.
Context (l : list (N * N * bool)).
Notation ns := (nstep (links_of l) 0 yes).
Definition leads (ops : list nop) (w : net) : Prop := exists ev, run ns ninit ops = Ok (w, ev).
Lemma ran_as ops (P : net -> bool) : match run ns ninit ops with Ok (w, _) => P w | _ => false end = true -> exists w, leads ops w /\ P w = true.
Proof. destruct (run ns ninit ops) as [[w ev]| |] eqn:E; try done. intros H. exists w. split; [by exists ev|done]. Qed.
Lemma leads_quiet ops w : leads ops w -> quietb w = true -> quiet w.
Proof. intros [ev H]. apply quietb_ok. by eapply senders. Qed.
Definition ruleb (free : net -> nop -> bool) (w : net) (o : nop) : bool := free w o || bool_decide (nrule (links_of l) 0 yes w o).
Lemma ruleb_ok free ops : guardedb ns (ruleb free) ninit ops = true -> guarded ns (fun w o => free w o = true \/ nrule (links_of l) 0 yes w o) ninit ops.
Proof. apply guardedb_sound. intros w o [?|?%bool_decide_eq_true_1]%orb_true_iff; auto. Qed.
Definition nobody (w : net) (o : nop) : bool := false.
Lemma strict_ok ops : guardedb ns (ruleb nobody) ninit ops = true -> guarded ns (nrule (links_of l) 0 yes) ninit ops.
Proof. intros H. apply (guardedb_sound ns (ruleb nobody)); [|done]. intros w o [?|?%bool_decide_eq_true_1]%orb_true_iff; [done|auto]. Qed.
Lemma leads_reached ops w : guardedb ns (ruleb nobody) ninit ops = true -> leads ops w -> reached (links_of l) 0 yes w.
Proof. intros Hg [ev Hr]. exists ops, ev. split; [by apply strict_ok|done]. Qed.
Definition stays (w : net) (n : N) : bool := match ns w (NLocal n OUnsubscribed) with Ok (w', _) => bool_decide (status w' n <> AShutDown) | _ => true end.
Lemma stays_ok w n : stays w n = true -> ~ finishes (links_of l) 0 yes w n.
Proof. unfold stays. intros H (w' & e & E & Hs). rewrite E in H. by apply bool_decide_eq_true_1 in H. Qed.
End checks.
Ltac by_prudent_links := apply links_prudent; apply (bool_decide_unpack _); vm_compute; exact I.

(** ** Three actors in a row: 3 is a client of 2, which waits until 1 is operational. *)
Notation D := NDeliver. Notation L := NLocal.
Definition row : list (N * N * bool) := [(3, 2, false); (2, 1, true)].
Definition row_up : list nop := [NNew 1; NNew 2; NNew 3; L 1 OInitReq; L 2 OInitReq; L 3 OInitReq; D 2 1; D 3 2; D 2 3; L 1 OStart; D 1 2; L 2 OStart; L 3 OStart].
Definition row_down : list nop := row_up ++ [L 1 OShutReq; L 2 OShutReq; L 3 OShutReq; D 1 2; D 2 3; D 3 2; D 2 1].
Lemma row_prudent : forall n, prudent_cfg 0 (links_of row n).
Proof. by_prudent_links. Qed.
Example C57_row : guarded (nstep (links_of row) 0 yes) (nrule (links_of row) 0 yes) ninit row_up /\
  exists w, leads row row_up w /\ quiet w /\ linked_to 1 (trace w 2) /\ linked_to 2 (trace w 3).
Proof.
  split; [apply strict_ok; vm_compute; reflexivity|].
  destruct (ran_as row row_up (fun w => quietb w && linked_tob 1 (trace w 2) && linked_tob 2 (trace w 3))) as (w & Hr & H); [vm_compute; reflexivity|].
  apply andb_true_iff in H as [[H1 H2]%andb_true_iff H3]. exists w. split_and!; [exact Hr|by eapply leads_quiet|by apply linked_tob_ok..].
Qed.
(** The hypotheses of C57_all_down hold, and so do those of C57_server_down for 2. *)
Example C57_row_down : reached (links_of row) 0 yes ninit /\ exists w, reached (links_of row) 0 yes w /\ quiet w /\
  (forall n, is_Some (w_act w !! n) -> status w n = AShuttingDown \/ status w n = AShutDown) /\
  ((forall n i, ~ owned i (trace w n)) /\ (forall n d, EvCancel d ∉ trace w n)) /\
  (exists h : N -> nat, forall c s p id, EvLink s p id ∈ trace w c -> (h c < h s)%nat) /\
  (exists b, EvState b AOperational ∈ trace w 2) /\ status w 2 = AShuttingDown /\ is_Some (w_act w !! 2) /\
  (forall c p id, EvLink 2 p id ∈ trace w c -> forall a r q, EvLinkReq a r q ∉ trace w c).
Proof.
  split; [by exists [], []|].
  set (okl := fun (w : net) (c : N) (x : aev) => match x with EvLink s _ _ => bool_decide (s < c /\ c < 10) | _ => true end).
  destruct (ran_as row row_down (fun w => quietb w && endingb w && freeb w && bool_decide (EvState AInitialized AOperational ∈ trace w 2) && bool_decide (status w 2 = AShuttingDown) && bool_decide (is_Some (w_act w !! 2)) &&
    forallb (fun c => forallb (okl w c) (trace w c)) (actors w) && forallb (fun c => bool_decide (c = 3) || forallb (fun x => match x with EvLink 2 _ _ => false | _ => true end) (trace w c)) (actors w) &&
    forallb (fun x => match x with EvLinkReq _ _ _ => false | _ => true end) (trace w 3))) as (w & Hr & H); [vm_compute; reflexivity|].
  repeat (apply andb_true_iff in H as [H ?]). exists w.
  assert (HT : forall c x, x ∈ trace w c -> c ∈ actors w) by (intros c x Hx; apply actors_ok; unfold trace in Hx; destruct (w_act w !! c); [by eexists|by apply elem_of_nil in Hx]).
  split_and!.
  - eapply leads_reached; [|exact Hr]; vm_compute; reflexivity.
  - by eapply leads_quiet.
  - by apply endingb_ok.
  - by apply freeb_ok.
  - by apply freeb_ok.
  - exists (fun n => (10 - N.to_nat n)%nat). intros c s p id Hin. rewrite forallb_forall in H2. pose proof (HT _ _ Hin) as Hc. apply elem_of_list_In in Hc. apply H2 in Hc. rewrite forallb_forall in Hc.
    apply elem_of_list_In, Hc in Hin. cbn in Hin. apply bool_decide_eq_true_1 in Hin. lia.
  - exists AInitialized. by apply bool_decide_eq_true_1 in H5.
  - by apply bool_decide_eq_true_1 in H4.
  - by apply bool_decide_eq_true_1 in H3.
  - intros c p id Hin a r q Hq. rewrite forallb_forall in H1. pose proof (HT _ _ Hin) as Hc. apply elem_of_list_In, H1, orb_true_iff in Hc as [->%bool_decide_eq_true_1|Hc].
    + rewrite forallb_forall in H0. apply elem_of_list_In, H0 in Hq. done.
    + rewrite forallb_forall in Hc. apply elem_of_list_In, Hc in Hin. done.
Qed.
(** The hypotheses of C57_ends hold when all three are told to shut down; four messages
    follow. *)
Example C57_row_ends : exists w, reached (links_of row) 0 yes w /\
  (forall n, is_Some (w_act w !! n) -> status w n = AShuttingDown \/ status w n = AShutDown) /\
  (forall n a, ~ link_open a (trace w n)) /\
  (forall n, status w n = AShuttingDown -> (forall i, ~ owned i (trace w n)) /\ names_back (trace w n)) /\
  (exists h : N -> nat, forall c s p id, EvLink s p id ∈ trace w c -> (h c < h s)%nat) /\
  guarded (nstep (links_of row) 0 yes) takes w [D 1 2; D 2 3; D 3 2; D 2 1] /\ linked_to 1 (trace w 2).
Proof.
  set (okl := fun (w : net) (c : N) (x : aev) => match x with EvLink s _ _ => bool_decide (s < c /\ c < 10) | _ => true end).
  set (tk := fun (w : net) (o : nop) => match o with D p n => bool_decide (is_Some (w_act w !! n)) && bool_decide (w_ch w p n <> []) | _ => false end).
  destruct (ran_as row (row_up ++ [L 1 OShutReq; L 2 OShutReq; L 3 OShutReq]) (fun w => endingb w && freeb w && forallb (fun c => forallb (okl w c) (trace w c)) (actors w) &&
    forallb (fun c => forallb (fun x => match x.2 with SRec _ (SLinking _) => false | _ => true end) (map_to_list (x_sv (sto w c)))) (actors w) &&
    guardedb (nstep (links_of row) 0 yes) tk w [D 1 2; D 2 3; D 3 2; D 2 1] && linked_tob 1 (trace w 2))) as (w & Hr & H); [vm_compute; reflexivity|].
  repeat (apply andb_true_iff in H as [H ?]). exists w.
  assert (HR : reached (links_of row) 0 yes w) by (eapply leads_reached; [|exact Hr]; vm_compute; reflexivity). clear Hr.
  pose proof (reached_inv _ _ _ _ row_prudent HR) as HV.
  assert (HT : forall c x, x ∈ trace w c -> c ∈ actors w) by (intros c x Hx; apply actors_ok; unfold trace in Hx; destruct (w_act w !! c); [by eexists|by apply elem_of_nil in Hx]).
  split_and!; [done|by apply endingb_ok| | | | |by apply linked_tob_ok].
  - intros n a Ho. pose proof Ho as (t1 & x & t2 & E & _ & _). assert (Hn : n ∈ actors w) by (apply (HT n x); rewrite E; apply elem_of_app; right; by left).
    apply (crun_open a _ _ (reach_lk _ a _ _ (a_reach (v_act _ _ HV n)))) in Ho as [id Ho].
    destruct (x_sv (sto w n) !! a) as [y|] eqn:Ey; [|done]. rewrite forallb_forall in H2. apply elem_of_list_In, H2 in Hn. rewrite forallb_forall in Hn.
    apply elem_of_map_to_list, elem_of_list_In, Hn in Ey. cbn in Ey. by destruct y as [? []].
  - intros n _. destruct (freeb_ok w H4) as [F1 F2]. split; [apply F1|left; apply F2].
  - exists (fun n => (10 - N.to_nat n)%nat). intros c s p id Hin. rewrite forallb_forall in H3. pose proof (HT _ _ Hin) as Hc. apply elem_of_list_In in Hc. apply H3 in Hc. rewrite forallb_forall in Hc.
    apply elem_of_list_In, Hc in Hin. cbn in Hin. apply bool_decide_eq_true_1 in Hin. lia.
  - apply (guardedb_sound _ tk); [|done]. intros w1 o. destruct o; try done. cbn. intros [?%bool_decide_eq_true_1 ?%bool_decide_eq_true_1]%andb_true_iff. done.
Qed.
(** While a message is under way, the server may still know a client which has left. *)
Example C57_under_way : exists w, reached (links_of row) 0 yes w /\ linked 3 (trace w 2) /\ ~ linked_to 2 (trace w 3).
Proof.
  destruct (ran_as row (row_up ++ [L 3 OShutReq]) (fun w => linkedb 3 (trace w 2) && bool_decide (last (trace w 3) = Some (EvShutVote PLife false)) && bool_decide (EvNotify 2 ∈ drop 10 (trace w 3)) && negb (existsb (fun x => bool_decide (x = EvLinkResp 2 true)) (drop 10 (trace w 3))))) as (w & Hr & H); [vm_compute; reflexivity|].
  repeat (apply andb_true_iff in H as [H ?]). exists w. split_and!.
  - eapply leads_reached; [|exact Hr]; vm_compute; reflexivity.
  - by apply linkedb_ok.
  - rewrite <- (take_drop 10 (trace w 3)). intros (t1 & x & t2 & E & <- & Hf). apply bool_decide_eq_true_1 in H1. apply negb_true_iff in H0.
    assert (Hn : EvLinkResp 2 true ∉ drop 10 (trace w 3)).
    { intros Hx. apply not_true_iff_false in H0. apply H0, existsb_exists. exists (EvLinkResp 2 true). split; [by apply elem_of_list_In|by apply bool_decide_eq_true_2]. }
    apply app_eq_inv in E as [(k & E1 & E2)|(k & E1 & E2)].
    + destruct k as [|y k]; cbn in E2.
      * apply Hn. rewrite <- E2. by left.
      * injection E2 as <- ->. apply Forall_app in Hf as [_ Hf]. rewrite Forall_forall in Hf. apply (Hf _ H1). auto.
    + apply Hn. rewrite E2. apply elem_of_app. right. by left.
Qed.

(** ** What goes wrong *)
(** Two actors which link to each other never end their shutdown. *)
Definition ring : list (N * N * bool) := [(1, 2, false); (2, 1, false)].
Definition ring_down : list nop := [NNew 1; NNew 2; L 1 OInitReq; L 2 OInitReq; D 1 2; D 2 1; D 1 2; D 2 1; L 1 OStart; L 2 OStart; L 1 OShutReq; L 2 OShutReq; D 1 2; D 2 1].
Theorem C57_ring_refuted : (forall n, prudent_cfg 0 (links_of ring n)) /\ exists w, reached (links_of ring) 0 yes w /\ quiet w /\
  (forall n, is_Some (w_act w !! n) -> status w n = AShuttingDown \/ status w n = AShutDown) /\
  (forall n i, ~ owned i (trace w n)) /\ (forall n d, EvCancel d ∉ trace w n) /\
  (linked 1 (trace w 2) /\ ~ finishes (links_of ring) 0 yes w 2) /\ (linked 2 (trace w 1) /\ ~ finishes (links_of ring) 0 yes w 1).
Proof.
  split; [by_prudent_links|].
  destruct (ran_as ring ring_down (fun w => quietb w && endingb w && freeb w && linkedb 1 (trace w 2) && linkedb 2 (trace w 1) && stays ring w 1 && stays ring w 2)) as (w & Hr & H); [vm_compute; reflexivity|].
  repeat (apply andb_true_iff in H as [H ?]). exists w. split_and!; [|by eapply leads_quiet|by apply endingb_ok|by apply freeb_ok..|by apply linkedb_ok|by apply stays_ok|by apply linkedb_ok|by apply stays_ok].
  eapply leads_reached; [|exact Hr]; vm_compute; reflexivity.
Qed.
(** A client which has clients itself keeps the unlink request, and does not look at it
    when they have left. *)
Definition row_stop : list nop := row_up ++ [L 1 OShutReq; D 1 2; D 2 1; L 3 OShutReq; D 3 2].
Theorem C57_row_refuted : exists w, reached (links_of row) 0 yes w /\ quiet w /\ status w 1 = AShuttingDown /\ (exists b, EvState b AOperational ∈ trace w 1) /\
  (forall n i, ~ owned i (trace w n)) /\ (forall n d, EvCancel d ∉ trace w n) /\
  linked_to 1 (trace w 2) /\ status w 2 = AOperational /\ (forall a, x_cl (sto w 2) !! a = None) /\ ~ finishes (links_of row) 0 yes w 1.
Proof.
  destruct (ran_as row row_stop (fun w => quietb w && bool_decide (status w 1 = AShuttingDown) && bool_decide (EvState AInitialized AOperational ∈ trace w 1) && freeb w && linked_tob 1 (trace w 2) && bool_decide (status w 2 = AOperational) && bool_decide (x_cl (sto w 2) = ∅) && stays row w 1)) as (w & Hr & H); [vm_compute; reflexivity|].
  repeat (apply andb_true_iff in H as [H ?]). exists w.
  split_and!; [|by eapply leads_quiet|by apply bool_decide_eq_true_1 in H6|exists AInitialized; by apply bool_decide_eq_true_1 in H5|by apply freeb_ok..|by apply linked_tob_ok|by apply bool_decide_eq_true_1 in H2| |by apply stays_ok].
  - eapply leads_reached; [|exact Hr]; vm_compute; reflexivity.
  - apply bool_decide_eq_true_1 in H1. rewrite H1. intros a. apply lookup_empty.
Qed.
(** A client which waits for a server to become operational is not answered when the
    server shuts down before; none of both gets on. *)
Definition early : list nop := [NNew 1; NNew 2; L 1 OInitReq; L 2 OInitReq; D 2 1; L 1 OShutReq].
Theorem C57_waiting_refuted : (forall n, prudent_cfg 0 (links_of [(2, 1, true)] n)) /\ exists w, reached (links_of [(2, 1, true)]) 0 yes w /\ quiet w /\ status w 1 = AShuttingDown /\
  (forall n i, ~ owned i (trace w n)) /\ (forall n d, EvCancel d ∉ trace w n) /\ (forall a r q, EvLinkReq a r q ∉ trace w 2) /\
  x_cl (sto w 1) !! 2 = Some (CPending 1) /\ status w 2 = AInitializing /\ ~ finishes (links_of [(2, 1, true)]) 0 yes w 1.
Proof.
  split; [by_prudent_links|].
  destruct (ran_as [(2, 1, true)] early (fun w => quietb w && bool_decide (status w 1 = AShuttingDown) && freeb w && forallb (fun x => match x with EvLinkReq _ _ _ => false | _ => true end) (trace w 2) && bool_decide (x_cl (sto w 1) !! 2 = Some (CPending 1)) && bool_decide (status w 2 = AInitializing) && stays [(2, 1, true)] w 1)) as (w & Hr & H); [vm_compute; reflexivity|].
  repeat (apply andb_true_iff in H as [H ?]). exists w.
  split_and!; [|by eapply leads_quiet|by apply bool_decide_eq_true_1 in H5|by apply freeb_ok..| |by apply bool_decide_eq_true_1 in H2|by apply bool_decide_eq_true_1 in H1|by apply stays_ok].
  - eapply leads_reached; [|exact Hr]; vm_compute; reflexivity.
  - intros a r q Hq. rewrite forallb_forall in H3. by apply elem_of_list_In, H3 in Hq.
Qed.
(** A link to oneself. *)
Definition own : list nop := [NNew 1; L 1 OInitReq; D 1 1; D 1 1; L 1 OStart; L 1 OShutReq; D 1 1].
Definition linking (w : net) (o : nop) : bool := match o with L _ OInitReq => true | _ => false end.
Theorem C57_self_refuted : (forall n, prudent_cfg 0 (links_of [(1, 1, false)] n)) /\ exists w, leads [(1, 1, false)] own w /\
  guarded (nstep (links_of [(1, 1, false)]) 0 yes) (fun w o => linking w o = true \/ nrule (links_of [(1, 1, false)]) 0 yes w o) ninit own /\ quiet w /\ status w 1 = AShuttingDown /\
  (forall n i, ~ owned i (trace w n)) /\ (forall n d, EvCancel d ∉ trace w n) /\ linked 1 (trace w 1) /\ ~ finishes (links_of [(1, 1, false)]) 0 yes w 1.
Proof.
  split; [by_prudent_links|].
  destruct (ran_as [(1, 1, false)] own (fun w => quietb w && bool_decide (status w 1 = AShuttingDown) && freeb w && linkedb 1 (trace w 1) && stays [(1, 1, false)] w 1)) as (w & Hr & H); [vm_compute; reflexivity|].
  repeat (apply andb_true_iff in H as [H ?]). exists w.
  split_and!; [exact Hr|apply ruleb_ok; vm_compute; reflexivity|by eapply leads_quiet|by apply bool_decide_eq_true_1 in H3|by apply freeb_ok..|by apply linkedb_ok|by apply stays_ok].
Qed.
(** Link requests which time out: the server keeps a client which has forgotten it, and
    which does not answer the unlink request. *)
Definition timeouts (w : net) (o : nop) : bool :=
  match o with L n (OTimeout id) => match w_act w !! n with Some nd => bool_decide (prudent 0 (w_s nd) (OTimeout id)) | None => false end
             | L n OLate => match w_act w !! n with Some nd => bool_decide (prudent 0 (w_s nd) OLate) | None => false end
             | _ => false end.
Definition gone : list nop := [NNew 1; NNew 2; L 1 OInitReq; L 2 OInitReq; D 2 1; L 2 (OTimeout 1); L 2 OLate; L 1 OStart; L 1 OShutReq; D 1 2; D 1 2; D 2 1].
Theorem C57_timeout_refuted : (forall n, prudent_cfg 0 (links_of [(2, 1, true)] n)) /\ exists w, leads [(2, 1, true)] gone w /\
  guarded (nstep (links_of [(2, 1, true)]) 0 yes) (fun w o => timeouts w o = true \/ nrule (links_of [(2, 1, true)]) 0 yes w o) ninit gone /\ quiet w /\ status w 1 = AShuttingDown /\
  (exists b, EvState b AOperational ∈ trace w 1) /\ (forall n i, ~ owned i (trace w n)) /\ (forall n d, EvCancel d ∉ trace w n) /\ (forall a r q, EvLinkReq a r q ∉ trace w 2) /\
  linked 2 (trace w 1) /\ ~ linked_to 1 (trace w 2) /\ ~ finishes (links_of [(2, 1, true)]) 0 yes w 1.
Proof.
  split; [by_prudent_links|].
  destruct (ran_as [(2, 1, true)] gone (fun w => quietb w && bool_decide (status w 1 = AShuttingDown) && bool_decide (EvState AInitialized AOperational ∈ trace w 1) && freeb w && forallb (fun x => match x with EvLinkReq _ _ _ | EvLinkResp _ true => false | _ => true end) (trace w 2) && linkedb 2 (trace w 1) && stays [(2, 1, true)] w 1)) as (w & Hr & H); [vm_compute; reflexivity|].
  repeat (apply andb_true_iff in H as [H ?]). exists w. rewrite forallb_forall in H2.
  split_and!; [exact Hr|apply ruleb_ok; vm_compute; reflexivity|by eapply leads_quiet|by apply bool_decide_eq_true_1 in H5|exists AInitialized; by apply bool_decide_eq_true_1 in H4|by apply freeb_ok..| |by apply linkedb_ok| |by apply stays_ok].
  - intros a r q Hq. by apply elem_of_list_In, H2 in Hq.
  - intros (t1 & x & t2 & E & <- & _). assert (Hin : EvLinkResp 1 true ∈ trace w 2) by (rewrite E; apply elem_of_app; right; by left). by apply elem_of_list_In, H2 in Hin.
Qed.
(** A second link after such a timeout: the unlink request of the server comes before its
    answer, which then finds nothing. *)
Definition again : list nop := [NNew 1; NNew 2; L 1 OInitReq; L 2 OInitReq; L 1 OStart; L 2 OStart; L 2 (OUser (ULink 1 false)); L 2 (OTimeout 1); L 2 OLate; D 2 1; L 2 (OUser (ULink 1 false)); D 1 2; L 1 OShutReq; D 2 1; D 1 2; D 1 2].
Theorem C57_relink_refuted : (forall n, prudent_cfg 0 (links_of [] n)) /\ run (nstep (links_of []) 0 yes) ninit again = AssertFail /\
  guarded (nstep (links_of []) 0 yes) (fun w o => timeouts w o = true \/ nrule (links_of []) 0 yes w o) ninit again.
Proof. split; [by_prudent_links|]. split; [vm_compute; reflexivity|apply ruleb_ok; vm_compute; reflexivity]. Qed.
(** The answer to a link request which comes during the shutdown, when the actor holds the
    init request and has clients. *)
Definition answer (w : net) (o : nop) : bool := match o with D p n => match w_ch w p n with WLinkAns _ _ :: _ => true | _ => false end | _ => false end.
Definition late_answer : list nop := [NNew 1; NNew 2; NNew 3; L 1 OInitReq; L 2 OInitReq; L 3 OInitReq; D 2 1; D 3 2; D 2 3; L 2 OShutReq; L 1 OStart; D 1 2].
Theorem C57_answer_refuted : (forall n, prudent_cfg 0 (links_of row n)) /\ run (nstep (links_of row) 0 yes) ninit late_answer = AssertFail /\
  guarded (nstep (links_of row) 0 yes) (fun w o => answer w o = true \/ nrule (links_of row) 0 yes w o) ninit late_answer.
Proof. split; [exact row_prudent|]. split; [vm_compute; reflexivity|apply ruleb_ok; vm_compute; reflexivity]. Qed.

Print Assumptions C57_safe_partial.
Print Assumptions C57_agree.
Print Assumptions C57_same.
Print Assumptions C57_all_down.
Print Assumptions C57_server_down.
Print Assumptions C57_ends.
Print Assumptions C57_ring_refuted.
Print Assumptions C57_row_refuted.
Print Assumptions C57_waiting_refuted.
Print Assumptions C57_self_refuted.
Print Assumptions C57_timeout_refuted.
Print Assumptions C57_relink_refuted.
Print Assumptions C57_answer_refuted.
