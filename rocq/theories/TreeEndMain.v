(** C74: progress of a tree which is told to end. *)
From stdpp Require Import base list gmap.
From Verif Require Import Base ChildMgrModel ChildMgrSpec ChildMgrProofs ChildMgrTrace FamilyModel FamilySpec FamilySteps FamilyInv FamilyProofs TreeModel TreeSpec.
From Verif Require Import FamilyEndSpec FamilyEndProofs FamilyEndMain FamilyEndFacts.
From Verif Require FlowSpec FlowInv FlowProofs FlowTreeSpec FlowTreeProofs TreeInv TreeNode TreeFacts.
From Verif Require Import TreeProofs TreeEndSpec TreeEndProofs.
Open Scope N_scope.

Lemma any_or_all {K A} `{Countable K} (P Q : K -> A -> Prop) (t : gmap K A) : (forall n x, t !! n = Some x -> P n x \/ Q n x) ->
  (exists n x, t !! n = Some x /\ P n x) \/ forall n x, t !! n = Some x -> Q n x.
Proof.
  induction t as [|k y t Hk IH] using map_ind; intros HPQ; [right; intros n x Hx; by rewrite lookup_empty in Hx|].
  destruct (HPQ k y) as [HP|HQ]; [by rewrite lookup_insert|left; exists k, y; by rewrite lookup_insert|].
  assert (Hne : forall n x, t !! n = Some x -> k <> n) by (intros n x Hx <-; congruence).
  destruct IH as [(n & x & Hx & HP)|IH].
  - intros n x Hx. apply HPQ. rewrite lookup_insert_ne; [done|by eapply Hne].
  - left. exists n, x. split; [|done]. rewrite lookup_insert_ne; [done|by eapply Hne].
  - right. intros n x Hx. apply lookup_insert_Some in Hx as [[<- <-]|[_ Hx]]; auto.
Qed.

Lemma b_eq s : b s = (match f_phase s with PWorking => if decide (voted (f_cm s)) then 2 else 3 | PAgreed => 1 | PLeft => 0 end + if decide (0%N ∈ f_bye s) then 0 else 1)%nat.
Proof. unfold b. destruct (f_phase s); destruct (decide (0 ∈ f_bye s)), (decide (voted (f_cm s))); vm_compute; done. Qed.

Section node.
Context (hp : bool) (policy : spolicy) (sync : bool).
Notation fstep := (fstep hp policy sync).
(** A child which finishes tells its supervisor. *)
Lemma finishes s c st s' e : c <> 0 -> state_of s c = Some st -> st = AShuttingDown -> c ∈ f_bye s -> fstep s (FChildDone c) = Ok (s', e) -> under_way s'.
Proof.
  intros Hc0 Hst -> Hb H. unfold state_of in Hst. destruct (cm_children (f_cm s) !! c) as [ch|] eqn:Hch; [|done]. cbn in Hst. injection Hst as Hst.
  cbn [FamilyModel.fstep] in H. unfold child_ready in H. rewrite Hch, bool_decide_true, decide_True in H by done. injection H as <- <-. unfold from. cbn. destruct (decide (c ∈ f_foreign s)).
  - right. exists c. left. unfold upl. cbn. rewrite lookup_insert. cbn. by destruct (default [] (f_up s !! c)).
  - left. cbn. by destruct (f_q s).
Qed.
Lemma leaves_phase s m ask s' e : cinv (f_cm s) -> f_phase s = PAgreed -> fstep s (FDeactivate m ask) = Ok (s', e) -> f_phase s' = PLeft.
Proof.
  intros Hv Hp H. cbn [FamilyModel.fstep] in H. rewrite bool_decide_true in H by done.
  destruct (manage0 hp policy sync (set_phase s PLeft) (ODeactivate m ask)) as [[s1 e1]| |] eqn:E; [|done..]. cbn [rbind] in H. injection H as <- <-.
  unfold FamilyModel.manage0 in E. apply phase_manage in E; [|done..]. by destruct m.
Qed.
End node.

Section tree.
Context (pol : list N -> spolicy) (sync : list N -> bool).
Notation nstep := (nstep pol sync).
Notation tstep := (tstep pol sync).
Notation nodeok := (nodeok pol sync).
Notation good := (tinv pol sync (fun _ => False)).
Context (r : list N).
Notation quiet := (quiet r).
Notation rootd := (rootd r).

Definition reaches (t t' : tstate) : Prop := exists ops e, Forall tinternal ops /\ guarded tstep tidy t ops /\ run tstep t ops = Ok (t', e).
Lemma reaches_refl t : reaches t t.
Proof. by exists [], []. Qed.
Lemma reaches_step t o t' e t'' : tinternal o -> tidy t o -> tstep t o = Ok (t', e) -> reaches t' t'' -> reaches t t''.
Proof.
  intros Hi Ht H (ops & e' & F & G & R). exists (o :: ops), (e ++ e'). split_and!.
  - by constructor.
  - cbn [guarded]. split; [done|]. by rewrite H.
  - cbn [run]. rewrite H. cbn. by rewrite R.
Qed.
Lemma reaches_trans t1 t2 t3 : reaches t1 t2 -> reaches t2 t3 -> reaches t1 t3.
Proof.
  intros (o1 & e1 & F1 & G1 & R1) (o2 & e2 & F2 & G2 & R2). exists (o1 ++ o2), (e1 ++ e2). split_and!.
  - by apply Forall_app.
  - by eapply guarded_app.
  - rewrite run_app, R1. cbn. by rewrite R2.
Qed.

Record ending (t : tstate) : Prop := { en_good : good t; en_quiet : quiet t; en_root : rootd t }.
Definition M (t : tstate) : nat := (W t + 10 * B t)%nat.
Lemma good_TI t : good t -> FlowTreeProofs.TI t.
Proof. intros Ht. split. intros n nd Hn. pose proof (no_fin _ _ _ _ (te_node _ _ _ _ Ht n nd Hn)) as Hf. by destruct (fi_all _ _ Hf). Qed.

Lemma one_op t n nd o : ending t -> t !! n = Some nd -> internal o \/ o = FLeave -> o <> FShutDown -> orderly (n_fam nd) o -> shared t n o = false ->
  exists t' e s, (forall t'', reaches t' t'' -> reaches t t'') /\ ending t' /\ nstep n (n_fam nd) o = Ok (s, e) /\
    (FlowSpec.moved (n_fam nd) o + W t' <= W t + FlowSpec.outside o)%nat /\ (B t' + b (n_fam nd) <= B t + b s)%nat /\ (B t' <= B t)%nat /\ t' !! n = Some (grow nd s o e).
Proof.
  intros [Hg Hq Hr] Hn Hi Ho Hor Hsh.
  assert (Hge : gentle o) by (by destruct o, Hi). assert (Hre : ready (n_fam nd) o = true) by (by destruct o, Hi). assert (Hti : timely (n_fam nd) o) by (by destruct o, Hi).
  assert (Htd : tidy t (TOp n o)). { cbn. by rewrite Hn. }
  destruct (step_good pol sync t (TOp n o) Hg Htd) as (t' & e & H & Hg'). exists t', e.
  destruct (op_calm pol sync r t n o nd t' e Hg Hn Hor Hge (fun _ => Ho) Hsh Hre H) as (C & s & Hs & HB & Ht'). exists s.
  destruct (FlowTreeProofs.tstep_cost pol sync t _ t' e (good_TI t Hg) H) as [HW _]. cbn [FlowTreeSpec.tmoved FlowTreeSpec.tout] in HW. rewrite Hn, Hsh, Hre in HW. cbn [negb orb] in HW.
  rewrite (ca_sups _ _ _ C), (ca_born _ _ _ C) in HW.
  split; [|split; [|split; [done|split; [lia|split; [done|split; [apply C|done]]]]]].
  - intros t''. eapply reaches_step; [|done|exact H]. destruct Hi as [Hi| ->]; [|done]. by destruct o.
  - split; [done|by apply C|by apply C].
Qed.

Definition goes (t : tstate) : Prop := exists t', reaches t t' /\ ending t' /\ (M t' < M t)%nat.
Lemma go_move t n nd : ending t -> t !! n = Some nd -> under_way (n_fam nd) -> goes t.
Proof.
  intros He Hn Hu. destruct (mover _ Hu) as (o & Ho & Hm). assert (Hd : forall c, o <> FChildDone c) by (intros c ->; done).
  destruct (children_internal o Ho) as (Hi & Hs & _).
  destruct (one_op t n nd o He Hn (or_introl Hi) Hs ltac:(by destruct o) ltac:(destruct o; try done; by destruct (Hd c))) as (t' & e & s & H1 & H2 & _ & H3 & _ & H4 & _).
  exists t'. split; [apply H1, reaches_refl|]. split; [done|]. unfold M. assert (FlowSpec.outside o = 0%nat) as Ho0 by (by destruct o). lia.
Qed.
Lemma go_then t t1 : (forall t'', reaches t1 t'' -> reaches t t'') -> (M t1 <= M t)%nat -> goes t1 -> goes t.
Proof. intros H1 H2 (t' & H3 & H4 & H5). exists t'. split; [auto|]. split; [done|lia]. Qed.

Definition still (t : tstate) : Prop := forall n nd, t !! n = Some nd -> f_q (n_fam nd) = [] /\ forall c, upl (n_fam nd) c = [] /\ downl (n_fam nd) c = [].
(** Everything is over. *)
Definition ended (t : tstate) : Prop := good t /\ exists nd, t !! r = Some nd /\ sup_state nd = AShutDown /\ f_phase (n_fam nd) = PLeft.

Lemma act_works t l n nd : n = l ++ r -> ending t -> still t -> t !! n = Some nd -> sup_state nd = AShuttingDown -> f_phase (n_fam nd) = PWorking ->
  (forall c m, t !! (c :: n) = Some m -> sup_state m <> AShuttingDown) -> goes t.
Proof.
  intros Hnr He Hst Hn Hs Hp Hno. pose proof (en_good _ He) as Hg. pose proof (te_node _ _ _ _ Hg n nd Hn) as Hok. pose proof (no_fin _ _ _ _ Hok) as Hf.
  assert (Hgd : FamilyEndMain.good PWorking (n_fam nd) (n_ev nd)). { split; [done|done|done|]. intros a Ha. apply (en_quiet _ He l a). rewrite <- Hnr. by exists nd. }
  pose proof (good_bye PWorking _ _ ltac:(done) Hgd) as Hb. destruct (Hst n nd Hn) as [Hq Hl].
  destruct (decide (map_Forall (fun c _ => able (n_fam nd) c = false) (cm_children (f_cm (n_fam nd))))) as [Hfa|Hfa].
  - assert (Hre : resting (n_fam nd)).
    { split; [done|]. intros c ch Hc Hch Hcs Hby. specialize (Hfa c ch Hch). unfold able in Hfa. rewrite Hch in Hfa. rewrite bool_decide_true in Hfa by done. done. }
    destruct (one_op t n nd FVote He Hn (or_introl I) ltac:(done) I eq_refl) as (t' & e & s & H1 & H2 & H3 & H4 & H5 & H6 & _). cbn in H4.
    exists t'. split; [apply H1, reaches_refl|]. split; [done|].
    assert (Hlt : (b s < b (n_fam nd))%nat); [|unfold M; lia].
    destruct (decide (voted (f_cm (n_fam nd)))) as [[Hv1 Hv2]|Hnv].
    + destruct (rest_vote (hp n) (pol n) (sync n) _ _ Hgd Hre Hv2) as (s1 & e1 & E1 & E2). unfold TreeModel.nstep in H3. rewrite H3 in E1. injection E1 as <- <-.
      destruct (vote_phase (hp n) (pol n) (sync n) _ _ _ Hp H3) as [_ Hpa]. specialize (Hpa E2). rewrite !b_eq, Hp, Hpa. rewrite (decide_False (P := 0 ∈ f_bye (n_fam nd))) by done.
      rewrite (decide_True (P := voted (f_cm (n_fam nd)))) by done. cbn. destruct (decide _); lia.
    + assert (Hvo : voted (f_cm s)).
      { split; [|exact (vote_asks _ _ _ _ _ _ Hs Hp (rest_spawnq PWorking _ _ ltac:(done) Hgd Hre) (gd_l _ _ _ Hgd) H3)].
        rewrite (stay (hp n) (pol n) (sync n) (n_fam nd) FVote s e I ltac:(done) Hs H3). done. }
      rewrite !b_eq, Hp, (decide_False (P := 0 ∈ f_bye (n_fam nd))) by done. rewrite (decide_True (P := voted (f_cm s))) by done. rewrite (decide_False (P := voted (f_cm (n_fam nd)))) by done. cbn.
      destruct (f_phase s), (decide (0 ∈ f_bye s)); lia.
  - apply map_not_Forall in Hfa as (c & ch & Hch & Hx); [|apply _]. apply not_false_is_true in Hx. unfold able in Hx. rewrite Hch in Hx. apply bool_decide_eq_true_1 in Hx as (Hc & Hcs & Hby).
    assert (Hcst : state_of (n_fam nd) c = Some AShuttingDown) by (unfold state_of; rewrite Hch; cbn; by rewrite Hcs).
    assert (Hsh : shared t n (FChildDone c) = false).
    { cbn. apply bool_decide_false. intros [m Hm]. pose proof (lk_state _ _ _ _ _ _ (good_link _ _ _ _ _ _ _ Hg Hm Hn)) as Hlk. rewrite Hcst in Hlk. injection Hlk as Hlk. by apply (Hno c m Hm). }
    destruct (one_op t n nd (FChildDone c) He Hn (or_introl I) ltac:(done) I Hsh) as (t' & e & s & H1 & H2 & H3 & H4 & _ & H6 & H7). cbn in H4.
    eapply (go_then t t' H1); [unfold M; lia|]. eapply go_move; [done|exact H7|]. cbn. eapply finishes; [| | | |exact H3]; done.
Qed.
Lemma act_agreed t n nd : ending t -> still t -> t !! n = Some nd -> f_phase (n_fam nd) = PAgreed -> goes t.
Proof.
  intros He Hst Hn Hp. pose proof (en_good _ He) as Hg. pose proof (te_node _ _ _ _ Hg n nd Hn) as Hok. pose proof (no_fin _ _ _ _ Hok) as Hf. destruct (Hst n nd Hn) as [Hq Hl].
  assert (Hb : 0 ∉ f_bye (n_fam nd)) by (intros Hb; apply (fi_bye _ _ Hf) in Hb; congruence).
  destruct (one_op t n nd (FDeactivate true false) He Hn (or_introl I) ltac:(done)) as (t' & e & s & H1 & H2 & H3 & H4 & H5 & H6 & _); [cbn; rewrite Hq; apply not_elem_of_nil|done|]. cbn in H4.
  exists t'. split; [apply H1, reaches_refl|]. split; [done|].
  assert (Hlt : (b s < b (n_fam nd))%nat); [|unfold M; lia].
  apply leaves_phase in H3; [|by destruct (fi_all _ _ Hf)|done]. rewrite !b_eq, Hp, H3, (decide_False (P := 0 ∈ f_bye (n_fam nd))) by done. cbn. destruct (decide _); lia.
Qed.
Lemma act_leave t n nd : ending t -> still t -> t !! n = Some nd -> f_phase (n_fam nd) = PLeft -> 0 ∉ f_bye (n_fam nd) -> goes t.
Proof.
  intros He Hst Hn Hp Hb. destruct (Hst n nd Hn) as [Hq Hl].
  destruct (one_op t n nd FLeave He Hn (or_intror eq_refl) ltac:(done) I eq_refl) as (t1 & e1 & s1 & H1 & H2 & H3 & H4 & H5 & H6 & H7). cbn in H4.
  unfold TreeModel.nstep in H3. cbn [FamilyModel.fstep] in H3. rewrite bool_decide_true in H3 by done. injection H3 as <- <-.
  destruct (one_op t1 n _ D0 H2 H7 (or_introl eq_refl) ltac:(done) I eq_refl) as (t2 & e2 & s2 & K1 & K2 & K3 & K4 & K5 & K6 & K7).
  unfold TreeModel.nstep, D0 in K3. cbn [FamilyModel.fstep n_fam grow push] in K3. unfold push in K3. cbn [f_q set_q] in K3. rewrite Hq in K3. cbn in K3. injection K3 as <- <-.
  cbn -[b W B FlowSpec.moved] in K4. unfold FlowSpec.moved, push in K4. cbn in K4. rewrite Hq in K4. cbn in K4.
  exists t2. split; [by apply H1, K1, reaches_refl|]. split; [done|]. unfold M.
  assert (Hlt : (b (n_fam (grow nd (push (n_fam nd) [MBye 0]) FLeave [])) = 1)%nat). { rewrite b_eq. cbn. by rewrite Hp, decide_False. }
  rewrite Hlt in K5. match type of K5 with (_ <= _ + b ?x)%nat => assert (Hz : b x = 0%nat) end.
  { rewrite b_eq. cbn. rewrite Hp. cbn. rewrite decide_True; [done|]. set_solver. }
  rewrite Hz in K5. lia.
Qed.
Lemma done_ready t p c m : good t -> still t -> t !! (c :: p) = Some m -> sup_state m = AShuttingDown ->
  exists pd, t !! p = Some pd /\ state_of (n_fam pd) c = Some AShuttingDown /\ c <> 0 /\ c ∈ f_bye (n_fam pd).
Proof.
  intros Hg Hst Hm Hs. destruct (te_par _ _ _ _ Hg c p m Hm) as (pd & Hp & Hcr). exists pd. split; [done|].
  pose proof (te_node _ _ _ _ Hg p pd Hp) as Hok. pose proof (no_fin _ _ _ _ Hok) as Hf. pose proof (lk_state _ _ _ _ _ _ (good_link _ _ _ _ _ _ _ Hg Hm Hp)) as Hlk. rewrite Hs in Hlk.
  split; [done|].
  assert (Hph : f_phase (n_fam pd) = PWorking).
  { destruct (decide (f_phase (n_fam pd) = PWorking)) as [|Hne]; [done|]. pose proof (TreeFacts.left_all _ _ p pd c Hok Hne Hcr) as Hx. congruence. }
  assert (Hpb : 0 ∉ f_bye (n_fam pd)) by (intros Hx; apply (fi_bye _ _ Hf) in Hx; congruence). destruct (Hst p pd Hp) as [Hq Hl].
  pose proof (fi_rinv _ _ Hf Hpb) as R. destruct (h_next _ _ (ai_h _ _ _ (fi_all _ _ Hf)) c Hcr) as [Hc0 _]. destruct (r_created _ _ _ R c Hcr) as [ch Hch]. split; [done|].
  pose proof (r_child _ _ _ R c ch Hc0 Hch) as P. assert (Hcs : ch_state ch = AShuttingDown) by (unfold state_of in Hlk; rewrite Hch in Hlk; by injection Hlk).
  pose proof (p_dn _ _ _ _ _ P) as Hd. unfold FamilyFold.DN in Hd. destruct (Hl c) as [_ Hdl]. rewrite Hdl, Hq, decide_False, Hcs in Hd by done. cbn in Hd.
  destruct Hd as [(H1 & _)|[(H1 & _)|[(_ & _ & _ & H4)|(_ & _ & H3 & _)]]]; [lia|lia| |done]. destruct H4 as [?|[[_ ?]|(_ & _ & ?)]]; done.
Qed.
Lemma act_done t p c m : c :: p <> r -> ending t -> still t -> t !! (c :: p) = Some m -> sup_state m = AShuttingDown -> 0 ∈ f_bye (n_fam m) -> goes t.
Proof.
  intros Hcr He Hst Hm Hs Hb. pose proof (en_good _ He) as Hg. destruct (done_ready t p c m Hg Hst Hm Hs) as (pd & Hp & Hlk & Hc0 & Hcb).
  destruct (step_good pol sync t (TDone p c) Hg I) as (t' & e & H & Hg'). destruct (done_calm pol sync r t p c pd m t' e Hcr Hg Hp Hm H) as (C & Hx). destruct (Hx Hb Hcb) as (s & Hs1 & Ht').
  destruct (FlowTreeProofs.tstep_cost pol sync t _ t' e (good_TI t Hg) H) as [HW _]. cbn [FlowTreeSpec.tmoved FlowTreeSpec.tout] in HW. rewrite (ca_sups _ _ _ C), (ca_born _ _ _ C) in HW.
  assert (He' : ending t') by (split; [done|apply C, He|apply C, He]).
  apply (go_then t t').
  - intros t''. exact (reaches_step t (TDone p c) t' e t'' I I H).
  - pose proof (ca_B _ _ _ C). unfold M. lia.
  - eapply go_move; [done|exact Ht'|]. cbn. eapply finishes; [| | | |exact Hs1]; done.
Qed.
Lemma act_end t nd : ending t -> still t -> t !! r = Some nd -> sup_state nd = AShuttingDown -> f_phase (n_fam nd) = PLeft -> 0 ∈ f_bye (n_fam nd) -> exists t', reaches t t' /\ ended t'.
Proof.
  intros He Hst Hn Hs Hp Hb. pose proof (en_good _ He) as Hg. clear He. unfold ended. revert Hn. generalize r as x. intros [|c p] Hn.
  - destruct (step_good pol sync t (TOp [] FShutDown) Hg) as (t' & e & H & Hg'); [cbn; by rewrite Hn|].
    exists t'. split; [eapply reaches_step; [| |exact H|apply reaches_refl]; [done|cbn; by rewrite Hn]|]. split; [done|].
    cbn [TreeModel.tstep] in H. rewrite Hn in H. cbn [shared hp ready negb orb] in H. unfold TreeModel.local in H. rewrite Hn in H.
    unfold TreeModel.nstep in H. cbn [FamilyModel.fstep] in H. unfold FamilyModel.manage0, FamilyModel.manage in H. cbn in H. unfold sup_state in Hs. rewrite Hs in H. cbn in H. injection H as <- <-.
    eexists. rewrite t_eq. split; [done|]. by split.
  - destruct (done_ready t p c nd Hg Hst Hn Hs) as (pd & Hpd & Hlk & Hc0 & Hcb).
    destruct (step_good pol sync t (TDone p c) Hg I) as (t' & e & H & Hg'). exists t'. split; [eapply reaches_step; [| |exact H|apply reaches_refl]; done|]. split; [done|].
    cbn [TreeModel.tstep] in H. rewrite Hpd, Hn, decide_True in H by done. unfold both, TreeModel.local in H. rewrite Hn in H.
    unfold TreeModel.nstep at 1 in H. cbn [FamilyModel.fstep] in H. unfold FamilyModel.manage0, FamilyModel.manage in H. cbn -[FamilyModel.fstep] in H. unfold sup_state in Hs. rewrite Hs in H. cbn -[FamilyModel.fstep] in H.
    rewrite t_ne in H by apply cons_ne. rewrite Hpd in H. destruct (TreeModel.nstep pol sync p (n_fam pd) (FChildDone c)) as [[s e1]| |]; [|done..]. cbn in H. injection H as <- <-.
    eexists. rewrite t_ne, t_eq by (intros Hx; by eapply cons_ne). split; [done|]. by split.
Qed.

Lemma deep t : ending t -> still t -> forall k l n nd, n = l ++ r -> (FlowInv.msum (fun n _ => length n) t < length n + k)%nat -> t !! n = Some nd -> sup_state nd = AShuttingDown ->
  goes t \/ exists t', reaches t t' /\ ended t'.
Proof.
  intros He Hst k. induction k as [|k IH]; intros l n nd Hnr Hk Hn Hs.
  { exfalso. pose proof (FlowInv.msum_get (fun (n : list N) (_ : node) => length n) t n nd Hn). lia. }
  destruct (any_or_all (fun x m => exists c, x = c :: n /\ sup_state m = AShuttingDown) (fun x m => forall c, x = c :: n -> sup_state m <> AShuttingDown) t) as [(x & m & Hm & c & -> & Hms)|Hno].
  { intros x m _. destruct x as [|c x]; [right; by intros c|]. destruct (decide (x = n /\ sup_state m = AShuttingDown)) as [[-> Hd]|Hd]; [left; by exists c|]. right. intros c' [= -> ->] Hx. by apply Hd. }
  { apply (IH (c :: l) (c :: n) m); [by rewrite Hnr|cbn; lia|done|done]. }
  destruct (f_phase (n_fam nd)) eqn:Hp.
  - left. eapply act_works; [exact Hnr|done|done|exact Hn|done|done|]. intros c m Hm. by eapply Hno.
  - left. by eapply act_agreed.
  - destruct (decide (0 ∈ f_bye (n_fam nd))) as [Hb|Hb]; [|left; by eapply act_leave].
    destruct (decide (n = r)) as [->|Hne]; [right; by eapply act_end|]. destruct l as [|c l]; [done|]. cbn in Hnr. subst n. left. by eapply act_done.
Qed.
Lemma progress t : ending t -> goes t \/ exists t', reaches t t' /\ ended t'.
Proof.
  intros He. destruct (any_or_all (fun _ m => under_way (n_fam m)) (fun _ m => f_q (n_fam m) = [] /\ forall c, upl (n_fam m) c = [] /\ downl (n_fam m) c = []) t) as [(n & m & Hm & Hu)|Hst].
  - intros n m _. apply under_way_or.
  - left. by eapply go_move.
  - destruct (en_root _ He) as (nd & Hn & Hs). eapply (deep t He Hst (S (FlowInv.msum (fun n _ => length n) t)) [] r nd); [done|lia|exact Hn|done].
Qed.
Lemma tree_ends k : forall t, (M t < k)%nat -> ending t -> exists t', reaches t t' /\ ended t'.
Proof.
  induction k as [|k IH]; intros t Hk He; [lia|]. destruct (progress t He) as [(t1 & H1 & H2 & H3)|?]; [|done].
  destruct (IH t1 ltac:(lia) H2) as (t2 & H4 & H5). exists t2. split; [by eapply reaches_trans|done].
Qed.
Lemma ended_over t : ended t -> all_over t r.
Proof.
  intros (Hg & nd & Hn & Hs & Hp) l m Hm. pose proof (te_node _ _ _ _ Hg _ m Hm) as Hok.
  destruct (TreeFacts.subtree pol sync t r nd Hg Hn ltac:(congruence) l m Hm) as [H1 H2]. split.
  - destruct l; [cbn in Hm; congruence|by apply H2].
  - intros c Hc. by eapply TreeFacts.left_all.
Qed.
End tree.

(** ** A lost spawner *)
Section stuck.
Context (pol : list N -> spolicy) (sync : list N -> bool).
Notation nstep := (nstep pol sync).
Notation local := (local pol sync).
Notation tstep := (tstep pol sync).
Notation nodeok := (nodeok pol sync).
Notation good := (tinv pol sync (fun _ => False)).
Definition stuck (t : tstate) (n : list N) (a : N) : Prop :=
  exists nd, t !! n = Some nd /\ cinv (f_cm (n_fam nd)) /\ 5 <= rank (sup_state nd) /\ f_phase (n_fam nd) = PWorking /\ lost (f_cm (n_fam nd)) a.
Lemma local_stuck t x o t' e n a : stuck t n a -> local t x o = Ok (t', e) -> stuck t' n a.
Proof.
  intros (nd & Hn & Hv & Hr & Hp & Hl) H. unfold TreeModel.local in H. destruct (t !! x) as [xd|] eqn:Hx; [|injection H as <- <-; by exists nd].
  destruct (nstep x (n_fam xd) o) as [[s e1]| |] eqn:E; [|done..]. cbn in H. injection H as <- <-.
  destruct (decide (x = n)) as [->|Hne]; [|exists nd; by rewrite t_ne]. rewrite Hn in Hx. injection Hx as <-. eexists. rewrite t_eq. split; [done|]. unfold sup_state. cbn.
  destruct (lost_fstep _ _ _ _ _ _ _ _ Hv Hr Hl E) as (H1 & H2 & H3). split; [done|]. split; [done|]. split; [|done].
  destruct (decide (f_phase s = PWorking)) as [|Hq]; [done|]. exfalso. pose proof (phase_new _ _ _ _ _ _ _ E Hp Hq) as Hvo. by apply (lost_no_vote _ _ _ _ _ _ _ _ Hv Hr Hl E).
Qed.
Lemma upcalls_stuck x l n a : forall t t', stuck t n a -> upcalls pol sync t x l = Ok t' -> stuck t' n a.
Proof.
  induction l as [|y l IH]; intros t t' Hs H; cbn [TreeModel.upcalls] in H; [by injection H as <-|].
  destruct (upcall pol sync t x y) as [[t1 e1]| |] eqn:E; [|done..]. cbn in H. eapply IH; [|exact H].
  unfold upcall in E. destruct x as [|c p]; [by injection E as <- <-|]. destruct y; try (by injection E as <- <-); by eapply local_stuck.
Qed.
Lemma both_stuck t x c oc on t' e n a : stuck t n a -> both pol sync t x c oc on = Ok (t', e) -> stuck t' n a.
Proof.
  intros Hs H. unfold both in H. destruct (local t (c :: x) oc) as [[t1 e1]| |] eqn:E1; [|done..]. cbn in H. eapply local_stuck; [|exact H]. by eapply local_stuck.
Qed.
Lemma tstep_stuck t o t' e n a : stuck t n a -> tstep t o = Ok (t', e) -> stuck t' n a.
Proof.
  intros Hs H. assert (Hno : forall e1, Ok (t, e1) = Ok (t', e) -> stuck t' n a) by (by intros e1 [= <- <-]).
  destruct o as [x o|x c|x c|x c|x c]; cbn [TreeModel.tstep] in H.
  - destruct (t !! x) as [xd|]; [|by eapply Hno]. destruct (shared t x o || _); [by eapply Hno|].
    destruct (local t x o) as [[t1 e1]| |] eqn:E1; [|done..]. cbn [rbind] in H. assert (S1 : stuck t1 n a) by (by eapply local_stuck).
    assert (Hd : forall t2 e2, (match downcall (n_fam xd) o with Some (c, oc) => local t1 (c :: x) oc | None => Ok (t1, []) end) = Ok (t2, e2) -> stuck t2 n a).
    { intros t2 e2. destruct (downcall (n_fam xd) o) as [[c oc]|]; [|by intros [= <- <-]]. intros E2. by eapply local_stuck. }
    destruct (match downcall (n_fam xd) o with Some (c, oc) => local t1 (c :: x) oc | None => Ok (t1, []) end) as [[t2 e2]| |]; [|done..]. cbn [rbind] in H.
    specialize (Hd _ _ eq_refl). destruct (upcalls pol sync t2 x e1) as [t3| |] eqn:E3; [|done..]. cbn in H. injection H as <- <-. by eapply upcalls_stuck.
  - destruct (t !! x) as [xd|]; [|by eapply Hno]. destruct (t !! (c :: x)) as [m|] eqn:Ec; [by eapply Hno|].
    destruct (child_ready (n_fam xd) c AInitializing) as [ch|]; [|by eapply Hno]. destruct (_ || _); [by eapply Hno|]. injection H as <- <-.
    destruct Hs as (nd & Hn & Hs). exists nd. split; [|done]. rewrite t_ne; [done|]. intros <-. congruence.
  - destruct (t !! (c :: x)); [|by eapply Hno]. destruct (ready _ _); [|by eapply Hno]. by eapply both_stuck.
  - destruct (t !! (c :: x)); [|by eapply Hno]. by eapply both_stuck.
  - destruct (t !! x); [|by eapply Hno]. destruct (t !! (c :: x)); [|by eapply Hno]. destruct (decide _); [|by eapply Hno]. by eapply both_stuck.
Qed.
Lemma trun_stuck ops n a : forall t t' e, stuck t n a -> run tstep t ops = Ok (t', e) -> stuck t' n a.
Proof.
  induction ops as [|o ops IH]; intros t t' e Hs H; [by injection H as <- <-|]. cbn [run] in H. destruct (tstep t o) as [[t1 e1]| |] eqn:E; [|done..]. cbn [rbind] in H.
  destruct (run tstep t1 ops) as [[t2 e2]| |] eqn:E2; [|done..]. cbn in H. injection H as <- <-. eapply IH; [|exact E2]. by eapply tstep_stuck.
Qed.

(** Only a timer which fires too late loses a spawner. *)
Lemma no_lost_init p : no_lost (f_cm (finit p)).
Proof. intros a (i & Hi & Ha & _). cbn in Hi. apply lookup_singleton_Some in Hi as [<- <-]. done. Qed.
Lemma lost_late n nd a : nodeok n nd -> lost (f_cm (n_fam nd)) a -> 5 <= rank (sup_state nd).
Proof.
  intros [Hg Hr _] Hl. unfold sup_state.
  assert (HI : (fun s (_ : list cevent) => cinv (f_cm s) /\ (no_lost (f_cm s) \/ 5 <= rank (cm_state (f_cm s)))) (n_fam nd) ([] ++ n_ev nd)).
  { refine (run_inv_ev (nstep n) orderly (fun s _ => cinv (f_cm s) /\ (no_lost (f_cm s) \/ 5 <= rank (cm_state (f_cm s)))) _ _ _ [] _ _ _ Hg Hr); [|split; [apply cinv_init|left; apply no_lost_init]].
    intros s ev o s' e [Hv Hi] Ho H. destruct (decide (5 <= rank (cm_state (f_cm s)))) as [H5|H5].
    - destruct (FlowProofs.fstep_cost _ _ _ _ _ _ _ Hv H) as [_ Hvs]. split; [done|]. right. apply fstep_cases in H as [(M & HM & _)|(x & co & Hc & Hf)]; [by rewrite HM|].
      assert (Hv' : cinv (set_initout (f_cm s) x)) by (by apply FlowProofs.cinv_initout).
      eapply moves_rank; [eapply (step_moves _ _ _ False); [exact Hv'| |exact Hc]|done]. by destruct co.
    - destruct Hi as [Hi|?]; [|done]. assert (Hpu : punctual s o). { destruct o; try done. cbn. destruct (cm_state (f_cm s)); cbn in *; lia. }
      destruct (no_lost_fstep _ _ _ _ _ _ _ Hv Hpu Hi H). auto. }
  destruct HI as [_ [Hn|?]]; [by apply Hn in Hl|done].
Qed.
Lemma lost_stuck t n a : good t -> lost_at t n a -> stuck t n a.
Proof.
  intros Hg (nd & Hn & Hp & Hl). pose proof (te_node _ _ _ _ Hg n nd Hn) as Hok. exists nd. split; [done|]. split; [|split; [by eapply lost_late|done]].
  pose proof (no_fin _ _ _ _ Hok) as Hf. by destruct (fi_all _ _ Hf).
Qed.
Lemma node_vote n nd : nodeok n nd -> f_phase (n_fam nd) <> PWorking <-> EVoteShutdown true ∈ n_ev nd.
Proof.
  intros Hok. split; [|apply (no_x _ _ _ _ Hok)]. intros Hp. destruct Hok as [Hg Hr _].
  assert (HI : (fun s (ev : list cevent) => f_phase s <> PWorking -> EVoteShutdown true ∈ ev) (n_fam nd) ([] ++ n_ev nd)); [|by apply HI].
  refine (run_inv_ev (nstep n) orderly (fun s ev => f_phase s <> PWorking -> EVoteShutdown true ∈ ev) _ _ _ [] _ _ _ Hg Hr); [|done]. intros s ev o s' e Hi _ H Hq. apply elem_of_app.
  destruct (decide (f_phase s = PWorking)) as [Hw|Hw]; [right; by eapply phase_new|left; auto].
Qed.
Lemma stuck_above t l r a nd : good t -> stuck t (l ++ r) a -> t !! r = Some nd -> EVoteShutdown true ∉ n_ev nd.
Proof.
  intros Hg (m & Hm & _ & _ & Hp & _) Hr Hv. pose proof (te_node _ _ _ _ Hg r nd Hr) as Hok. apply (node_vote r nd Hok) in Hv.
  by destruct (TreeFacts.subtree pol sync t r nd Hg Hr Hv l m Hm) as [Hx _].
Qed.

(** ** Reachable trees *)
Notation treach := (TreeFacts.treach pol sync).
Lemma reach_more ops t ev ops' t' ev' : treach ops t ev -> guarded tstep tidy t ops' -> run tstep t ops' = Ok (t', ev') -> good t'.
Proof.
  intros [Hg H] Hg' H'. eapply (TreeFacts.reach_good _ _ (ops ++ ops')). split; [by eapply guarded_app|]. rewrite run_app, H. cbn. by rewrite H'.
Qed.
Lemma tree_can_end ops t ev r nd : treach ops t ev -> t !! r = Some nd -> sup_state nd = AShuttingDown -> (forall l a, ~ lost_at t (l ++ r) a) ->
  exists ops' t' ev' nd', Forall tinternal ops' /\ guarded tstep tidy t ops' /\ run tstep t ops' = Ok (t', ev') /\ all_over t' r /\
    t' !! r = Some nd' /\ EVoteShutdown true ∈ n_ev nd'.
Proof.
  intros Ht Hr Hs Hq. pose proof (TreeFacts.reach_good _ _ _ _ _ Ht) as Hg.
  destruct (tree_ends pol sync r (S (M t)) t ltac:(lia)) as (t' & (ops' & ev' & F & G & R) & He); [split; [done|done|by exists nd]|].
  pose proof (ended_over _ _ _ _ He) as Hov. destruct He as (Hg' & nd' & Hr' & _ & Hp'). exists ops', t', ev', nd'. split_and!; try done.
  apply (node_vote r nd'); [by apply (te_node _ _ _ _ Hg')|congruence].
Qed.
Lemma tree_lost ops t ev l r a ops' t' ev' nd' : treach ops t ev -> lost_at t (l ++ r) a -> guarded tstep tidy t ops' -> run tstep t ops' = Ok (t', ev') -> t' !! r = Some nd' ->
  EVoteShutdown true ∉ n_ev nd' /\ lost_at t' (l ++ r) a.
Proof.
  intros Ht Hl G R Hr. pose proof (TreeFacts.reach_good _ _ _ _ _ Ht) as Hg. pose proof (reach_more _ _ _ _ _ _ Ht G R) as Hg'.
  pose proof (trun_stuck _ _ _ _ _ _ (lost_stuck _ _ _ Hg Hl) R) as Hs. split; [by eapply stuck_above|]. destruct Hs as (nd & H1 & _ & _ & H2 & H3). by exists nd.
Qed.
Lemma tree_exact ops t ev r nd : treach ops t ev -> t !! r = Some nd -> sup_state nd = AShuttingDown ->
  (exists ops' t' ev' nd', guarded tstep tidy t ops' /\ run tstep t ops' = Ok (t', ev') /\ t' !! r = Some nd' /\ EVoteShutdown true ∈ n_ev nd') <->
  (forall l a, ~ lost_at t (l ++ r) a).
Proof.
  intros Ht Hr Hs. split.
  - intros (ops' & t' & ev' & nd' & G & R & Hr' & Hv) l a Hl. by destruct (tree_lost _ _ _ _ _ _ _ _ _ _ Ht Hl G R Hr').
  - intros Hq. destruct (tree_can_end _ _ _ _ _ Ht Hr Hs Hq) as (ops' & t' & ev' & nd' & _ & G & R & _ & Hr' & Hv). by exists ops', t', ev', nd'.
Qed.
End stuck.

(** ** Timers which are not late *)
Section punctual.
Context (pol : list N -> spolicy) (sync : list N -> bool).
Notation nstep := (nstep pol sync).
Notation local := (local pol sync).
Notation tstep := (tstep pol sync).
Definition safe (t : tstate) : Prop := forall n nd, t !! n = Some nd -> cinv (f_cm (n_fam nd)) /\ no_lost (f_cm (n_fam nd)).
Lemma local_safe t x o t' e : safe t -> (forall nd, t !! x = Some nd -> punctual (n_fam nd) o) -> local t x o = Ok (t', e) -> safe t'.
Proof.
  intros Hs Hp H. unfold TreeModel.local in H. destruct (t !! x) as [xd|] eqn:Hx; [|by injection H as <- <-].
  destruct (nstep x (n_fam xd) o) as [[s e1]| |] eqn:E; [|done..]. cbn in H. injection H as <- <-. intros n nd Hn.
  destruct (decide (x = n)) as [<-|Hne]; [|rewrite t_ne in Hn by done; by apply Hs in Hn]. rewrite t_eq in Hn. injection Hn as <-. cbn.
  destruct (Hs _ _ Hx) as [H1 H2]. eapply no_lost_fstep; [exact H1|by apply Hp|exact H2|exact E].
Qed.
Lemma upcalls_safe x l : forall t t', safe t -> upcalls pol sync t x l = Ok t' -> safe t'.
Proof.
  induction l as [|y l IH]; intros t t' Hs H; cbn [TreeModel.upcalls] in H; [by injection H as <-|].
  destruct (upcall pol sync t x y) as [[t1 e1]| |] eqn:E; [|done..]. cbn in H. eapply IH; [|exact H].
  unfold upcall in E. destruct x as [|c p]; [by injection E as <- <-|]. destruct y; try (by injection E as <- <-); (eapply local_safe; [exact Hs| |exact E]; intros; exact I).
Qed.
Lemma both_safe t x c oc on t' e : (forall s, punctual s oc /\ punctual s on) -> safe t -> both pol sync t x c oc on = Ok (t', e) -> safe t'.
Proof.
  intros Hp Hs H. unfold both in H. destruct (local t (c :: x) oc) as [[t1 e1]| |] eqn:E1; [|done..]. cbn in H.
  refine (local_safe t1 x on t' e _ (fun nd _ => proj2 (Hp (n_fam nd))) H). exact (local_safe t (c :: x) oc t1 e1 Hs (fun nd _ => proj1 (Hp (n_fam nd))) E1).
Qed.
Lemma tstep_safe t o t' e : safe t -> tpunctual t o -> tstep t o = Ok (t', e) -> safe t'.
Proof.
  intros Hs Hp H. assert (Hno : forall e1, Ok (t, e1) = Ok (t', e) -> safe t') by (by intros e1 [= <- <-]).
  destruct o as [x o|x c|x c|x c|x c]; cbn [TreeModel.tstep] in H.
  - cbn in Hp. destruct (t !! x) as [xd|] eqn:Hx; [|by eapply Hno]. destruct (shared t x o || _); [by eapply Hno|].
    destruct (local t x o) as [[t1 e1]| |] eqn:E1; [|done..]. cbn [rbind] in H. assert (S1 : safe t1) by (refine (local_safe t x o t1 e1 Hs _ E1); intros nd Hnd; rewrite Hx in Hnd; injection Hnd as <-; exact Hp).
    assert (Hd : forall t2 e2, (match downcall (n_fam xd) o with Some (c, oc) => local t1 (c :: x) oc | None => Ok (t1, []) end) = Ok (t2, e2) -> safe t2).
    { intros t2 e2. destruct (downcall (n_fam xd) o) as [[c oc]|] eqn:Ed; [|by intros [= <- <-]]. apply downcall_gentle in Ed. intros E2. eapply local_safe; [exact S1| |exact E2]. intros nd _. by destruct Ed as [-> | ->]. }
    destruct (match downcall (n_fam xd) o with Some (c, oc) => local t1 (c :: x) oc | None => Ok (t1, []) end) as [[t2 e2]| |]; [|done..]. cbn [rbind] in H.
    specialize (Hd _ _ eq_refl). destruct (upcalls pol sync t2 x e1) as [t3| |] eqn:E3; [|done..]. cbn in H. injection H as <- <-. by eapply upcalls_safe.
  - destruct (t !! x) as [xd|]; [|by eapply Hno]. destruct (t !! (c :: x)) as [m|] eqn:Ec; [by eapply Hno|].
    destruct (child_ready (n_fam xd) c AInitializing) as [ch|]; [|by eapply Hno]. destruct (_ || _); [by eapply Hno|]. injection H as <- <-.
    intros n nd Hn. destruct (decide (c :: x = n)) as [<-|Hne]; [|rewrite t_ne in Hn by done; by apply Hs in Hn]. rewrite t_eq in Hn. injection Hn as <-. cbn. split; [apply cinv_init|apply (no_lost_init true)].
  - destruct (t !! (c :: x)); [|by eapply Hno]. destruct (ready _ _); [|by eapply Hno]. by eapply both_safe; [|exact Hs|exact H].
  - destruct (t !! (c :: x)); [|by eapply Hno]. by eapply both_safe; [|exact Hs|exact H].
  - destruct (t !! x); [|by eapply Hno]. destruct (t !! (c :: x)); [|by eapply Hno]. destruct (decide _); [|by eapply Hno]. by eapply both_safe; [|exact Hs|exact H].
Qed.
Lemma tree_punctual ops t ev : guarded tstep tpunctual tinit ops -> run tstep tinit ops = Ok (t, ev) -> forall n a, ~ lost_at t n a.
Proof.
  intros Hg H n a (nd & Hn & _ & Hl). assert (Hs : safe t); [|by destruct (Hs n nd Hn) as [_ Hx]; apply Hx in Hl].
  refine (run_inv_ev tstep tpunctual (fun t _ => safe t) _ _ _ [] _ _ _ Hg H).
  - intros t1 _ o t2 e H1 H2 H3. by eapply tstep_safe.
  - intros x xd Hx. rewrite init_at in Hx. destruct x; [|done]. injection Hx as <-. cbn. split; [apply cinv_init|apply (no_lost_init false)].
Qed.
End punctual.
