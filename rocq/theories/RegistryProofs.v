From stdpp Require Import base gmap list strings.
From Verif Require Import Base RegistryModel RegistrySpec.

(** Invariant: reverse index agrees with the bindings; no promise waits for a
    registered name. *)
Record RInv (s : rstate) : Prop := {
  ri_fwd : forall n a, registered s !! n = Some a -> exists ns, reverse s !! a = Some ns /\ n ∈ ns;
  ri_bwd : forall n a ns, reverse s !! a = Some ns -> n ∈ ns -> registered s !! n = Some a;
  ri_prom : forall p, p ∈ promises s -> registered s !! dr_name p = None
}.

Lemma RInv_init : RInv rinit.
Proof.
  split; simpl.
  - intros n a H; by rewrite lookup_empty in H.
  - intros n a ns H; by rewrite lookup_empty in H.
  - intros p H; by apply elem_of_nil in H.
Qed.

Lemma answer_promises_spec n a ps :
  answer_promises n a ps =
  (filter (fun p => dr_name p <> n) ps,
   (fun p => PromFound p a) <$> filter (fun p => dr_name p = n) ps).
Proof.
  induction ps as [|p ps IH]; simpl; [done|].
  rewrite IH. rewrite !filter_cons.
  destruct (decide (dr_name p = n)) as [He|He]; simpl.
  - destruct (decide (dr_name p <> n)) as [Hne|Hne]; [done|]. done.
  - destruct (decide (dr_name p <> n)) as [Hne|Hne]; [done|]. exfalso; tauto.
Qed.

Lemma foldr_delete_lookup (m : gmap name addr) (l : list name) n :
  foldr delete m l !! n = if decide (n ∈ l) then None else m !! n.
Proof.
  induction l as [|x l IH]; simpl.
  - destruct (decide (n ∈ [])) as [H|]; [by apply elem_of_nil in H|done].
  - destruct (decide (x = n)) as [->|Hne].
    + rewrite decide_True by set_solver. by rewrite lookup_delete.
    + rewrite lookup_delete_ne by done. rewrite IH.
      destruct (decide (n ∈ l)) as [Hl|Hl].
      * rewrite decide_True; [done|set_solver].
      * rewrite decide_False; [done|set_solver].
Qed.

Lemma cancel_first_none id src ps :
  cancel_first id src ps = None -> forall p, p ∈ ps -> ~ (dr_id p = id /\ dr_origin p = src).
Proof.
  induction ps as [|q ps IH]; simpl; intros H p Hp; [by apply elem_of_nil in Hp|].
  destruct (decide _) as [|Hn]; [done|].
  destruct (cancel_first id src ps) as [[x y]|] eqn:Hc; [done|].
  apply elem_of_cons in Hp as [->|Hp]; [done|]. by apply IH.
Qed.

Lemma cancel_first_some id src ps p rest :
  cancel_first id src ps = Some (p, rest) ->
  exists l1 l2, ps = l1 ++ p :: l2 /\ rest = l1 ++ l2 /\ dr_id p = id /\ dr_origin p = src /\
    forall q, q ∈ l1 -> ~ (dr_id q = id /\ dr_origin q = src).
Proof.
  revert rest. induction ps as [|q ps IH]; simpl; intros rest H; [done|].
  destruct (decide _) as [[H1 H2]|Hn].
  - inversion H; subst. exists [], rest. repeat split; try done. intros q Hq; by apply elem_of_nil in Hq.
  - destruct (cancel_first id src ps) as [[x y]|] eqn:Hc; [|done].
    inversion H; subst. destruct (IH y eq_refl) as (l1 & l2 & -> & -> & Ha & Hb & Hq).
    exists (q :: l1), l2. repeat split; try done.
    intros q' Hq'. apply elem_of_cons in Hq' as [->|Hq']; [done|]. by apply Hq.
Qed.

Definition babs (s : rstate) (b : bindings) : Prop := forall n, b n = registered s !! n.

(** One step refines the specification and keeps the invariant. *)
Lemma rstep_refines s b o :
  RInv s -> babs s b ->
  exists s' b' e, rstep s o = Ok (s', e) /\ RInv s' /\ babs s' b' /\
    reg_spec b (promises s) o b' (promises s') e /\ b' = bstep b o.
Proof.
  intros [Hf Hb Hp] Habs. destruct o as [r|a|n|d|d|id src]; simpl.
  - (* Reg *)
    unfold on_reg. rewrite <- (Habs (rr_name r)).
    destruct (b (rr_name r)) as [a0|] eqn:Hbn.
    + exists s, b, [RegAlreadyRegistered r]. split; [done|]. repeat split; try done.
      econstructor; eauto.
    + rewrite answer_promises_spec.
      eexists _, (bind_upd b (rr_name r) (Some (rr_addr r))), _. split; [reflexivity|].
      rewrite Habs in Hbn.
      repeat split; simpl.
      * intros n a. rewrite lookup_insert_Some. intros [[<- <-]|[Hne Hl]].
        -- eexists. rewrite lookup_insert. split; [done|set_solver].
        -- destruct (Hf n a Hl) as (ns & Hns & Hin).
           destruct (decide (a = rr_addr r)) as [->|Hna].
           ++ rewrite lookup_insert. eexists; split; [done|]. rewrite Hns. set_solver.
           ++ rewrite lookup_insert_ne by done. eauto.
      * intros n a ns. rewrite lookup_insert_Some. intros [[<- <-]|[Hne Hl]] Hin.
        -- apply elem_of_union in Hin as [Hin|Hin].
           ++ apply elem_of_singleton in Hin as ->. by rewrite lookup_insert.
           ++ destruct (reverse s !! rr_addr r) as [ns0|] eqn:Hr; simpl in Hin; [|set_solver].
              destruct (decide (n = rr_name r)) as [->|]; [by rewrite lookup_insert|].
              rewrite lookup_insert_ne by done. eauto.
        -- destruct (decide (n = rr_name r)) as [->|].
           ++ rewrite (Hb _ _ _ Hl Hin) in Hbn. done.
           ++ rewrite lookup_insert_ne by done. eauto.
      * intros p Hin. apply elem_of_list_filter in Hin as [Hn Hin].
        rewrite lookup_insert_ne by done. eauto.
      * intros n. unfold bind_upd; simpl. destruct (decide (n = rr_name r)) as [->|].
        -- by rewrite lookup_insert.
        -- rewrite lookup_insert_ne by done. apply Habs.
      * constructor. by rewrite Habs.
  - (* Dereg *)
    unfold on_dereg. destruct (reverse s !! a) as [ns|] eqn:Hr.
    + eexists _, (fun n => if decide (b n = Some a) then None else b n), _.
      split; [reflexivity|].
      assert (Hiff : forall n, n ∈ elements ns <-> registered s !! n = Some a).
      { intros n. rewrite elem_of_elements. split; [eauto|].
        intros Hl. destruct (Hf _ _ Hl) as (ns' & Hns' & Hin). congruence. }
      repeat split; simpl.
      * intros n a'. rewrite foldr_delete_lookup.
        destruct (decide (n ∈ elements ns)) as [Hin|Hnin]; [done|]. intros Hl.
        destruct (Hf _ _ Hl) as (ns' & Hns' & Hin).
        exists ns'. split; [|done]. rewrite lookup_delete_ne; [done|].
        intros <-. apply Hnin. by apply Hiff.
      * intros n a' ns'. rewrite lookup_delete_Some. intros [Hne Hl] Hin.
        rewrite foldr_delete_lookup. destruct (decide (n ∈ elements ns)) as [Hin'|]; [|eauto].
        apply Hiff in Hin'. pose proof (Hb _ _ _ Hl Hin). congruence.
      * intros p Hin. rewrite foldr_delete_lookup. destruct (decide _); [done|]. eauto.
      * intros n. simpl. rewrite foldr_delete_lookup.
        destruct (decide (b n = Some a)) as [He|He], (decide (n ∈ elements ns)) as [Hin|Hin].
        -- done.
        -- exfalso. apply Hin, Hiff. by rewrite <- Habs.
        -- exfalso. apply He. rewrite Habs. by apply Hiff.
        -- apply Habs.
      * constructor.
    + exists s, (fun n => if decide (b n = Some a) then None else b n), [].
      repeat split; try done.
      * intros n. destruct (decide (b n = Some a)) as [He|]; [|done].
        rewrite Habs in He. destruct (Hf _ _ He) as (ns & ? & ?). congruence.
      * constructor.
  - (* DeregService *)
    unfold on_dereg_service. destruct (registered s !! n) as [a|] eqn:Hl.
    + destruct (Hf _ _ Hl) as (ns & Hns & Hin). rewrite Hns.
      eexists _, (bind_upd b n None), _. split; [reflexivity|]. repeat split; simpl.
      * intros n' a'. rewrite lookup_delete_Some. intros [Hne Hl'].
        destruct (Hf _ _ Hl') as (ns' & Hns' & Hin').
        destruct (decide (a' = a)) as [->|].
        -- rewrite lookup_insert. eexists; split; [done|].
           rewrite Hns in Hns'; inversion Hns'; subst. set_solver.
        -- rewrite lookup_insert_ne by done. eauto.
      * intros n' a' ns'. rewrite lookup_insert_Some. intros [[<- <-]|[Hne Hl']] Hin'.
        -- apply elem_of_difference in Hin' as [Hin1 Hin2].
           rewrite lookup_delete_ne by set_solver. eauto.
        -- rewrite lookup_delete_ne; [eauto|]. intros <-.
           pose proof (Hb _ _ _ Hl' Hin'). congruence.
      * intros p Hin'. rewrite lookup_delete_None. right. eauto.
      * intros m. unfold bind_upd; simpl.
        destruct (decide (m = n)) as [->|]; [by rewrite lookup_delete|].
        rewrite lookup_delete_ne by done. apply Habs.
      * constructor.
    + exists s, (bind_upd b n None), []. repeat split; try done.
      * intros m. unfold bind_upd; simpl. destruct (decide (m = n)) as [->|]; [done|]. apply Habs.
      * constructor.
  - (* Discover *)
    unfold on_discovery. rewrite <- Habs. destruct (b (dr_name d)) as [a|] eqn:Hd.
    + exists s, b, [DiscFound d a]. repeat split; try done. by constructor.
    + exists s, b, [DiscUnknown d]. repeat split; try done. by constructor.
  - (* Promise *)
    unfold on_promise. rewrite <- Habs. destruct (b (dr_name d)) as [a|] eqn:Hd.
    + exists s, b, [PromFound d a]. repeat split; try done. by constructor.
    + eexists _, b, _. split; [reflexivity|]. repeat split; try done; simpl.
      * intros p Hin. apply elem_of_app in Hin as [Hin|Hin]; [eauto|].
        apply elem_of_list_singleton in Hin as ->. by rewrite <- Habs.
      * by constructor.
  - (* Cancel *)
    unfold on_cancel. destruct (cancel_first id src (rev (promises s))) as [[p rest]|] eqn:Hc.
    + apply cancel_first_some in Hc as (l1 & l2 & Hps & -> & H1 & H2 & H3).
      assert (Hps' : promises s = rev l2 ++ p :: rev l1).
      { rewrite <- (rev_involutive (promises s)), Hps, rev_app_distr. simpl.
        by rewrite <- (assoc_L (++)). }
      eexists _, b, _. split; [reflexivity|]. rewrite rev_app_distr. repeat split; try done; simpl.
      * intros q Hq. apply Hp. rewrite Hps'. set_solver.
      * eapply S_cancel; eauto. intros q Hq. apply H3.
        rewrite rev_alt, <- rev_alt in Hq. by apply elem_of_list_In, in_rev, elem_of_list_In in Hq.
    + exists s, b, []. repeat split; try done. constructor. intros p Hin.
      eapply cancel_first_none; [exact Hc|].
      apply elem_of_list_In. rewrite <- in_rev. by apply elem_of_list_In.
Qed.

Lemma registry_refines_gen ops : forall s b, RInv s -> babs s b ->
  exists s' e, run rstep s ops = Ok (s', e) /\ RInv s' /\ babs s' (fold_left bstep ops b) /\
    reg_trace b (promises s) ops (fold_left bstep ops b) (promises s') e.
Proof.
  induction ops as [|o ops IH]; intros s b HI Hb; simpl.
  - exists s, []. repeat split; try done; try apply HI. constructor.
  - destruct (rstep_refines s b o HI Hb) as (s1 & b1 & e1 & -> & HI1 & Hb1 & Hspec & ->); simpl.
    destruct (IH s1 _ HI1 Hb1) as (s2 & e2 & -> & HI2 & Hb2 & Htr); simpl.
    eexists _, _; repeat split; eauto; try apply HI2. econstructor; eauto.
Qed.

Lemma registry_reach ops :
  exists s e, run rstep rinit ops = Ok (s, e) /\ RInv s /\ babs s (binding ops) /\
    reg_trace (fun _ => None) [] ops (binding ops) (promises s) e.
Proof.
  destruct (registry_refines_gen ops rinit (fun _ => None) RInv_init) as (s & e & H1 & H2 & H3 & H4).
  { intros n. simpl; by rewrite lookup_empty. }
  eauto 10.
Qed.

Lemma count_app {A} (f : A -> bool) l1 l2 : count f (l1 ++ l2) = count f l1 + count f l2.
Proof. unfold count. rewrite List.filter_app, app_length. done. Qed.

Lemma count_filter_split d n pend :
  count (fun p => bool_decide (p = d)) pend =
  count (fun p => bool_decide (p = d)) (filter (fun p => dr_name p <> n) pend) +
  count (fun p => bool_decide (p = d)) (filter (fun p => dr_name p = n) pend).
Proof.
  induction pend as [|p pend IH]; [done|]. rewrite !filter_cons.
  unfold count in *. simpl.
  destruct (decide (dr_name p = n)), (decide (dr_name p <> n)); try done; simpl;
    destruct (bool_decide (p = d)); simpl; lia.
Qed.

Lemma count_answers d a l :
  count (is_answer d) ((fun p => PromFound p a) <$> l) = count (fun p => bool_decide (p = d)) l.
Proof.
  induction l as [|p l IH]; [done|]. unfold count in *; simpl. destruct (bool_decide (p = d)); simpl; [f_equal|]; exact IH.
Qed.

Lemma spec_ledger b pend o b' pend' e d :
  reg_spec b pend o b' pend' e ->
  count (fun p => bool_decide (p = d)) pend + count (is_promise d) [o] =
  count (fun p => bool_decide (p = d)) pend' + count (is_answer d) e.
Proof.
  intros H. inversion H; subst; clear H; unfold count; simpl; try lia.
  - fold (count (fun p => bool_decide (p = d)) pend).
    fold (count (is_answer d) ((fun p => PromFound p (rr_addr r)) <$> filter (fun p => dr_name p = rr_name r) pend)).
    fold (count (fun p => bool_decide (p = d)) (filter (fun p => dr_name p <> rr_name r) pend)).
    rewrite count_answers, (count_filter_split d (rr_name r) pend). lia.
  - destruct (bool_decide (d0 = d)); simpl; lia.
  - rewrite List.filter_app, app_length; simpl. destruct (bool_decide (d0 = d)); simpl; lia.
  - rewrite !List.filter_app, !app_length; simpl. destruct (bool_decide (p = d)); simpl; lia.
Qed.

Lemma trace_ledger b pend ops b' pend' e d :
  reg_trace b pend ops b' pend' e ->
  count (fun p => bool_decide (p = d)) pend + count (is_promise d) ops =
  count (fun p => bool_decide (p = d)) pend' + count (is_answer d) e.
Proof.
  induction 1 as [|b pend o b1 pend1 e1 ops b2 pend2 e2 Hs Ht IH].
  - unfold count; simpl; lia.
  - change (o :: ops) with ([o] ++ ops). rewrite !count_app.
    pose proof (spec_ledger _ _ _ _ _ _ d Hs). lia.
Qed.

Lemma registry_promise_ledger ops d s e :
  run rstep rinit ops = Ok (s, e) ->
  count (is_promise d) ops = count (fun p => bool_decide (p = d)) (promises s) + count (is_answer d) e.
Proof.
  intros Hr. destruct (registry_reach ops) as (s' & e' & Hr' & _ & _ & Ht).
  rewrite Hr in Hr'; inversion Hr'; subst. apply (trace_ledger _ _ _ _ _ _ d) in Ht.
  unfold count in *; simpl in *; lia.
Qed.

Lemma registry_no_stale_promise ops s e p :
  run rstep rinit ops = Ok (s, e) -> p ∈ promises s -> binding ops (dr_name p) = None.
Proof.
  intros Hr Hp. destruct (registry_reach ops) as (s' & e' & Hr' & HI & Hb & _).
  rewrite Hr in Hr'; inversion Hr'; subst. rewrite (Hb (dr_name p)). by apply HI.
Qed.

Lemma registry_discovery ops s e d :
  run rstep rinit ops = Ok (s, e) ->
  rstep s (Discover d) =
    Ok (s, [match binding ops (dr_name d) with Some a => DiscFound d a | None => DiscUnknown d end]).
Proof.
  intros Hr. destruct (registry_reach ops) as (s' & e' & Hr' & HI & Hb & _).
  rewrite Hr in Hr'; inversion Hr'; subst. simpl. unfold on_discovery.
  rewrite <- (Hb (dr_name d)). destruct (binding ops (dr_name d)); done.
Qed.

Lemma registry_dup ops s e r a :
  run rstep rinit ops = Ok (s, e) -> binding ops (rr_name r) = Some a ->
  rstep s (Reg r) = Ok (s, [RegAlreadyRegistered r]).
Proof.
  intros Hr Ha. destruct (registry_reach ops) as (s' & e' & Hr' & HI & Hb & _).
  rewrite Hr in Hr'; inversion Hr'; subst. simpl. unfold on_reg.
  rewrite <- (Hb (rr_name r)), Ha. done.
Qed.

Lemma registry_dereg_exact ops s e a s' e' n :
  run rstep rinit ops = Ok (s, e) -> rstep s (Dereg a) = Ok (s', e') ->
  e' = [] /\ promises s' = promises s /\
  registered s' !! n = (if decide (registered s !! n = Some a) then None else registered s !! n).
Proof.
  intros Hr Hs. destruct (registry_reach ops) as (s0 & e0 & Hr' & HI & Hb & _).
  rewrite Hr in Hr'; inversion Hr'; subst.
  destruct (rstep_refines s0 _ (Dereg a) HI Hb) as (s1 & b1 & e1 & Hs1 & _ & Hb1 & Hsp & ->).
  rewrite Hs in Hs1; inversion Hs1; subst. inversion Hsp; subst. repeat split; try done.
  rewrite <- (Hb1 n). simpl. rewrite (Hb n). done.
Qed.

Lemma registry_dereg_service_exact ops s e n :
  run rstep rinit ops = Ok (s, e) ->
  exists s', rstep s (DeregService n) = Ok (s', []) /\ promises s' = promises s /\
    registered s' = delete n (registered s).
Proof.
  intros Hr. destruct (registry_reach ops) as (s0 & e0 & Hr' & HI & Hb & _).
  rewrite Hr in Hr'; inversion Hr'; subst. simpl. unfold on_dereg_service.
  destruct (registered s0 !! n) as [a|] eqn:Hl.
  - destruct (ri_fwd _ HI _ _ Hl) as (ns & -> & _). eexists; repeat split; done.
  - exists s0. rewrite delete_notin; done.
Qed.

Lemma registry_refines_map ops :
  exists s e, run rstep rinit ops = Ok (s, e) /\
    reg_trace (fun _ => None) [] ops (binding ops) (promises s) e /\
    forall n, registered s !! n = binding ops n.
Proof.
  destruct (registry_reach ops) as (s & e & H1 & _ & H2 & H3).
  exists s, e. split; [exact H1|]. split; [exact H3|]. intros n. symmetry. exact (H2 n).
Qed.
