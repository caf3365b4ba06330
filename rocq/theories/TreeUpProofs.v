(** C79: a tree of supervisors which initializes can become operational when nobody ends. *)
From stdpp Require Import base list gmap.
From Verif Require Import Base ChildMgrModel ChildMgrSpec ChildMgrProofs ChildMgrTrace ChildMgrFacts FamilyModel FamilySpec FamilySteps FamilyInv FamilyProofs TreeModel TreeSpec TreeProofs.
From Verif Require Import FamilyStartSpec FamilyStartProofs TreeStartSpec TreeStartProofs FamilyEndProofs FamilyEndMain FamilyUpSpec FamilyUpProofs TreeUpSpec.
From Verif Require FlowSpec FlowInv FlowProofs FlowTreeSpec FlowTreeProofs TreeEndMain TreeEndProofs.
Open Scope N_scope.
Notation msum := FlowInv.msum.
Notation tborn := FlowTreeSpec.tborn.
Notation tsups := FlowTreeSpec.tsups.
Notation W := FlowTreeProofs.W.

(** ** One supervisor *)
Definition soft (o : fop) : Prop := smooth o \/ exists c, o = FChildStart c.
Definition lets (o : fop) : Prop := carries o \/ o = FParentInit \/ exists c, o = FChildStart c.
Section node.
Context (hp : bool) (policy : spolicy) (sync : bool).
Notation fstep := (fstep hp policy sync).
Notation manage := (manage hp policy sync).

Lemma lets_step s ev o s' e : reach hp policy sync s ev -> peaceful s -> lets o -> fstep s o = Ok (s', e) -> calm s e s' /\ level s s'.
Proof.
  intros Hr Hp Ho H. pose proof (reach_cinv _ _ _ _ _ Hr) as Hv. pose proof (reach_down _ _ _ _ _ Hr Hp) as Hd.
  assert (Hsame : Ok (s, []) = Ok (s', e) -> calm s e s' /\ level s s') by (intros H'; injection H' as <- <-; split; [split; [done|]; split; [constructor|cbn; lia]|by split]).
  destruct Ho as [Ho|[-> |[c ->]]]; [by eapply carry_step| |].
  - cbn [FamilyModel.fstep] in H. unfold manage0 in H.
    assert (Hb : forall b : bool, (if b then manage false false s OInitRequest else Ok (s, [])) = Ok (s', e) -> calm s e s' /\ level s s'); [|by eapply Hb].
    intros [] H'; [|auto]. destruct (manage_peace hp policy sync false s OInitRequest s' e Hv I Hp H') as (M1 & M2 & M3 & M4). split; [by split|]. by apply M4.
  - cbn [FamilyModel.fstep] in H. destruct (child_ready s c AInitialized) as [ch|]; [|auto]. injection H as <- <-. split; [|by split]. split; [by apply evolve_peace|]. split; [constructor|unfold slots; cbn; lia].
Qed.
Lemma soft_step s ev o s' e : reach hp policy sync s ev -> peaceful s -> soft o -> fstep s o = Ok (s', e) -> calm s e s'.
Proof.
  intros Hr Hp Ho H. pose proof (reach_cinv _ _ _ _ _ Hr) as Hv.
  assert (Hl : lets o -> calm s e s') by (intros Hl; by destruct (lets_step s ev o s' e Hr Hp Hl H)).
  destruct Ho as [Ho|[c ->]]; [|apply Hl; right; right; by exists c].
  destruct o; try done; try (by apply Hl; left); try (by apply Hl; right; left); cbn [FamilyModel.fstep] in H; unfold manage0 in H.
  - destruct (_ && _); [|injection H as <- <-; split; [done|]; split; [constructor|cbn; lia]].
    destruct (manage false false s (OState AInitialized)) as [[t et]| |] eqn:E; [|done..]. cbn [rbind] in H.
    destruct (manage_peace hp policy sync false s (OState AInitialized) t et Hv eq_refl Hp E) as (H1 & H2 & H3 & _).
    assert (Hb : forall b : bool, Ok (if b then t else push t [MInitResp 0 false], et) = Ok (s', e) -> calm s e s'); [|by eapply Hb].
    intros [] H'; injection H' as <- <-; [by split|]. split; [|done]. apply push_peace; [done|repeat constructor].
  - by destruct (manage_peace hp policy sync false s OHandleStart s' e Hv I Hp H) as (H1 & H2 & H3 & _).
Qed.
(** The answer. *)
Lemma answers s s' e : fstep s FInitialized = Ok (s', e) -> cm_state (f_cm s) = AInitializing -> cm_initreq (f_cm s) = true -> cm_state (f_cm s') = AInitialized.
Proof.
  intros H Hst Hq. cbn [FamilyModel.fstep] in H. unfold manage0 in H. rewrite bool_decide_true, Hq in H by done. cbn [andb] in H.
  destruct (manage false false s (OState AInitialized)) as [[t et]| |] eqn:Hm; [|done..]. cbn [rbind] in H. injection H as <- <-.
  assert (Hb : forall b : bool, f_cm (if b then t else push t [MInitResp 0 false]) = f_cm t) by (by intros []). rewrite Hb.
  apply FamilyEndProofs.manage_cm in Hm. cbn in Hm. rewrite Hst in Hm. cbn in Hm. by injection Hm as <- _.
Qed.
Lemma starts s s' e : fstep s FStarted = Ok (s', e) -> cm_state (f_cm s) = AInitialized -> cm_state (f_cm s') = AOperational /\ ESupStart ∈ e.
Proof.
  intros H Hst. cbn [FamilyModel.fstep] in H. unfold manage0 in H. apply FamilyEndProofs.manage_cm in H. cbn -[handle_start] in H. rewrite bool_decide_true in H by done. unfold handle_start in H.
  revert H. generalize sync. intros [] H; injection H as <- <-; (split; [done|left]).
Qed.
(** A child answers. *)
Lemma child_answers s c s' e : c <> 0 -> state_of s c = Some AInitializing -> (exists ch, cm_children (f_cm s) !! c = Some ch /\ ch_initreq ch = true) -> fstep s (FChildInit c false) = Ok (s', e) -> under_way s'.
Proof.
  intros Hc Hst (ch & Hch & Hq) H. unfold state_of in Hst. rewrite Hch in Hst. cbn in Hst. injection Hst as Hst.
  cbn [FamilyModel.fstep] in H. unfold child_ready in H. rewrite Hch, bool_decide_true, Hq in H by done. injection H as <- <-. unfold from. cbn. destruct (decide (c ∈ f_foreign s)).
  - right. exists c. left. unfold upl. cbn. rewrite lookup_insert. cbn. by destruct (default [] (f_up s !! c)).
  - left. cbn. by destruct (f_q s).
Qed.
End node.

(** ** The tree *)
Section tree.
Context (pol : list N -> spolicy) (sync : list N -> bool).
Notation nstep := (nstep pol sync).
Notation local := (local pol sync).
Notation tstep := (tstep pol sync).
Notation nodeok := (nodeok pol sync).
Notation good := (tinv pol sync (fun _ => False)).
Notation alln := (TreeEndProofs.alln pol sync).
Context (r : list N).

Definition Sl (t : tstate) : nat := msum (fun _ nd => slots (f_cm (n_fam nd))) t.
Definition rlevel (t t' : tstate) : Prop := forall rd, t !! r = Some rd -> exists rd', t' !! r = Some rd' /\ level (n_fam rd) (n_fam rd').
Record eased (t t' : tstate) : Prop := { ea_all : alln t'; ea_peace : tpeaceful t'; ea_born : (tborn t' + Sl t' <= tborn t + Sl t)%nat; ea_sups : tsups t' = tsups t }.
Lemma eased_refl t : alln t -> tpeaceful t -> eased t t.
Proof. by split. Qed.
Lemma eased_trans t1 t2 t3 : eased t1 t2 -> eased t2 t3 -> eased t1 t3.
Proof. intros [A1 A2 A3 A4] [B1 B2 B3 B4]. split; [done|done|lia|congruence]. Qed.
Lemma rlevel_refl t : rlevel t t.
Proof. intros rd H. exists rd. by split; [|split]. Qed.
Lemma rlevel_trans t1 t2 t3 : rlevel t1 t2 -> rlevel t2 t3 -> rlevel t1 t3.
Proof. intros H1 H2 rd H. destruct (H1 rd H) as (rd2 & H3 & L1). destruct (H2 rd2 H3) as (rd3 & H4 & L2). exists rd3. split; [done|]. by eapply level_trans. Qed.

Lemma soft_orderly s o : soft o -> orderly s o /\ timely s o.
Proof. intros [Ho|[c ->]]; [|done]. by destruct o. Qed.
Lemma lets_soft o : lets o -> soft o.
Proof. intros [Ho|[-> |Ho]]; [left; by apply carries_smooth|by left|by right]. Qed.
Lemma node_reach n nd : nodeok n nd -> reach (hp n) (pol n) (sync n) (n_fam nd) (n_ev nd).
Proof. intros [H1 H2 _]. by exists (n_ops nd). Qed.

Lemma local_eased t n o t' e : alln t -> tpeaceful t -> soft o -> local t n o = Ok (t', e) ->
  eased t t' /\ Forall good_event e /\ (forall nd, t !! n = Some nd -> exists s, nstep n (n_fam nd) o = Ok (s, e) /\ t' = <[n := grow nd s o e]> t) /\
  (forall m, m <> n -> t' !! m = t !! m) /\ ((n = r -> lets o) -> rlevel t t').
Proof.
  intros Ha Hp Ho H. assert (Hsz := H). apply FlowTreeProofs.local_size in Hsz. unfold TreeModel.local in H. destruct (t !! n) as [nd|] eqn:En.
  2:{ injection H as <- <-. split; [by apply eased_refl|]. split; [constructor|]. split; [done|]. split; [done|]. intros _. apply rlevel_refl. }
  destruct (nstep n (n_fam nd) o) as [[s e1]| |] eqn:E; [|done..]. cbn in H. injection H as <- <-.
  assert (Hn := Ha _ _ En). destruct (Hp _ _ En) as [Hpn Hfn]. destruct (soft_orderly (n_fam nd) o Ho) as [Hor Hti].
  destruct (node_step pol sync n nd o Hn Hor Hti) as (s' & e' & E' & Hn'). rewrite E in E'. injection E' as <- <-.
  pose proof (node_reach n nd Hn) as Hr. destruct (soft_step _ _ _ _ _ o s e1 Hr Hpn Ho E) as (C1 & C2 & C3).
  split; [|split; [done|split; [|split]]].
  - split.
    + intros m md Hm. destruct (decide (n = m)) as [<-|Hne]; [rewrite t_eq in Hm; by injection Hm as <-|rewrite t_ne in Hm by done; by apply Ha].
    + intros m md Hm. destruct (decide (n = m)) as [<-|Hne]; [rewrite t_eq in Hm; injection Hm as <-|rewrite t_ne in Hm by done; by apply (Hp m)]. cbn. split; [done|]. by apply good_fails.
    + pose proof (FlowTreeProofs.t_upd (fun _ nd => FlowSpec.births (n_ev nd)) t n nd (grow nd s o e1) En) as HC. cbn beta in HC. cbn [n_ev grow] in HC. rewrite FlowInv.births_app in HC.
      pose proof (FlowTreeProofs.t_upd (fun _ nd => slots (f_cm (n_fam nd))) t n nd (grow nd s o e1) En) as HD. cbn beta in HD. cbn [n_fam grow] in HD.
      unfold FlowTreeSpec.tborn, Sl, grow in *. lia.
    + done.
  - intros nd' [= <-]. by exists s.
  - intros m Hm. by rewrite t_ne.
  - intros Hl rd Hrd. destruct (decide (n = r)) as [->|Hne]; [|exists rd; rewrite t_ne by done; by split; [|split]].
    rewrite En in Hrd. injection Hrd as <-. eexists. rewrite t_eq. split; [done|]. cbn. by destruct (lets_step _ _ _ _ _ o s e1 Hr Hpn (Hl eq_refl) E).
Qed.
Lemma upcalls_good t n e : Forall good_event e -> upcalls pol sync t n e = Ok t.
Proof.
  induction e as [|x e IH]; intros H; [done|]. apply Forall_cons in H as [Hx H]. cbn. assert (Hu : upcall pol sync t n x = Ok (t, [])) by (unfold upcall; destruct n; destruct x; done).
  rewrite Hu. cbn. by apply IH.
Qed.
(** A message which goes down in peace is an init request. *)
Lemma downcall_init s o c oc : peaceful s -> downcall s o = Some (c, oc) -> oc = FParentInit.
Proof.
  intros (P1 & _ & P3 & _). assert (Hh : forall d m, good_news m -> handled s d m = Some (c, oc) -> oc = FParentInit).
  { intros d m Hm. unfold handled. case_decide; [done|]. destruct m; try done; by intros [= _ <-]. }
  destruct o; try done; cbn.
  - destruct (f_q s) as [|m q]; [done|]. apply Forall_cons in P1 as [Hm _]. destruct m; try done; (destruct (_ || _); [done|]); by apply Hh.
  - specialize (P3 c0). destruct (downl s c0) as [|m l]; [done|]. apply Forall_cons in P3 as [Hm _]. by apply Hh.
Qed.
Lemma op_eased t n o nd t' e : alln t -> tpeaceful t -> t !! n = Some nd -> smooth o -> shared t n o = false -> ready (n_fam nd) o = true -> tstep t (TOp n o) = Ok (t', e) ->
  eased t t' /\ ((n = r -> lets o) -> rlevel t t') /\ exists s, nstep n (n_fam nd) o = Ok (s, e) /\ t' !! n = Some (grow nd s o e).
Proof.
  intros Ha Hp En Ho Hsh Hre H. cbn [TreeModel.tstep] in H. rewrite En, Hsh, Hre in H. cbn [negb orb] in H.
  destruct (local t n o) as [[t1 e1]| |] eqn:E1; [|done..]. cbn [rbind] in H.
  apply local_eased in E1 as (A1 & G1 & S1 & _ & L1); [|done|done|by left]. destruct (S1 nd En) as (s & Hs & Ht1).
  assert (Hd : forall t2 e2, (match downcall (n_fam nd) o with Some (c, oc) => local t1 (c :: n) oc | None => Ok (t1, []) end) = Ok (t2, e2) -> eased t1 t2 /\ t2 !! n = t1 !! n /\ rlevel t1 t2).
  { intros t2 e2. destruct (downcall (n_fam nd) o) as [[c oc]|] eqn:Ed; [|intros [= <- <-]; split; [apply eased_refl; apply A1|split; [done|apply rlevel_refl]]].
    apply downcall_init in Ed as ->; [|by apply (Hp n)]. intros E2. apply local_eased in E2 as (E3 & _ & _ & E5 & E6); [|apply A1|apply A1|by left].
    split; [done|]. split; [apply E5; intros Hx; by eapply cons_ne|]. apply E6. intros _. right. by left. }
  destruct (match downcall (n_fam nd) o with Some (c, oc) => local t1 (c :: n) oc | None => Ok (t1, []) end) as [[t2 e2]| |]; [|done..]. cbn [rbind] in H.
  destruct (Hd _ _ eq_refl) as (A2 & S2 & L2). rewrite (upcalls_good t2 n e1 G1) in H. cbn in H. injection H as <- <-.
  split; [by eapply eased_trans|]. split; [intros Hl; eapply rlevel_trans; [by apply L1|done]|]. exists s. split; [done|]. rewrite S2, Ht1. apply t_eq.
Qed.
Lemma both_eased t n c oc on t' e : alln t -> tpeaceful t -> soft oc -> soft on -> both pol sync t n c oc on = Ok (t', e) ->
  eased t t' /\ ((c :: n = r -> lets oc) -> (n = r -> lets on) -> rlevel t t') /\
  (forall m, t !! (c :: n) = Some m -> exists s e1, nstep (c :: n) (n_fam m) oc = Ok (s, e1) /\ t' !! (c :: n) = Some (grow m s oc e1)) /\
  (forall nd, t !! n = Some nd -> exists s, nstep n (n_fam nd) on = Ok (s, e) /\ t' !! n = Some (grow nd s on e)).
Proof.
  intros Ha Hp Hoc Hon H. unfold both in H. destruct (local t (c :: n) oc) as [[t1 e1]| |] eqn:E1; [|done..]. cbn in H.
  apply local_eased in E1 as (A1 & _ & S1 & N1 & L1); [|done..]. apply local_eased in H as (A2 & _ & S2 & N2 & L2); [|apply A1|apply A1|done].
  split; [by eapply eased_trans|]. split; [intros H1 H2; eapply rlevel_trans; [by apply L1|by apply L2]|]. split.
  - intros m Hm. destruct (S1 m Hm) as (s & Hs & ->). exists s, e1. split; [done|]. rewrite N2 by apply cons_ne. apply t_eq.
  - intros nd Hn. destruct (S2 nd) as (s & Hs & ->); [rewrite N1; [done|intros Hx; by eapply cons_ne]|]. exists s. split; [done|]. apply t_eq.
Qed.
Lemma step_eased t o t' e : alln t -> tpeaceful t -> tsmooth o -> tstep t o = Ok (t', e) -> eased t t'.
Proof.
  intros Ha Hp Ho H. assert (Hsame : Ok (t, []) = Ok (t', e) -> eased t t') by (intros H'; injection H' as <- <-; by apply eased_refl).
  destruct o as [n o|n c|n c|n c|n c]; try done.
  - pose proof H as H0. cbn [TreeModel.tstep] in H. destruct (t !! n) as [nd|] eqn:En; [|auto]. destruct (shared t n o || negb (ready (n_fam nd) o)) eqn:Eb; [auto|].
    apply orb_false_elim in Eb as [E1 E2]. apply negb_false_iff in E2. by destruct (op_eased t n o nd t' e Ha Hp En Ho E1 E2 H0).
  - cbn [TreeModel.tstep] in H. destruct (t !! (c :: n)) as [m|]; [|auto]. destruct (ready _ _); [|auto]. apply both_eased in H as [H _]; [done|done|done|by left..].
  - cbn [TreeModel.tstep] in H. destruct (t !! (c :: n)) as [m|]; [|auto]. apply both_eased in H as [H _]; [done|done|done|by left|right; by exists c].
Qed.

(** *** Progress *)
(** Nobody starts on this way. *)
Definition quiet (o : top) : Prop := match o with TStarted _ _ | TOp _ FStarted => False | _ => True end.
Definition tcalm (o : top) : Prop := tsmooth o /\ quiet o.
Definition reaches (t t' : tstate) : Prop := exists ops e, Forall tcalm ops /\ guarded tstep tidy t ops /\ run tstep t ops = Ok (t', e).
Lemma reaches_refl t : reaches t t.
Proof. by exists [], []. Qed.
Lemma reaches_step t o t' e t'' : tcalm o -> tidy t o -> tstep t o = Ok (t', e) -> reaches t' t'' -> reaches t t''.
Proof.
  intros Hi Ht H (ops & e' & F & G & R). exists (o :: ops), (e ++ e'). split_and!.
  - by constructor.
  - cbn [guarded]. split; [done|]. by rewrite H.
  - cbn [run]. rewrite H. cbn. by rewrite R.
Qed.
Lemma reaches_trans t1 t2 t3 : reaches t1 t2 -> reaches t2 t3 -> reaches t1 t3.
Proof.
  intros (o1 & e1 & F1 & G1 & R1) (o2 & e2 & F2 & G2 & R2). exists (o1 ++ o2), (e1 ++ e2). split_and!.
  - by apply Forall_app.
  - by eapply guarded_app.
  - rewrite run_app, R1. cbn. by rewrite R2.
Qed.
Lemma smooth_tidy t o : tsmooth o -> tidy t o.
Proof. destruct o as [n o| | | |]; try done. cbn. intros Ho. destruct (t !! n) as [nd|]; [|done]. apply soft_orderly. by left. Qed.

Record rising (t : tstate) : Prop := { ri_good : good t; ri_peace : tpeaceful t }.
Definition MW (t : tstate) : nat := (W t + 36 * Sl t)%nat.
Lemma rising_step t o : rising t -> tsmooth o -> exists t' e, tstep t o = Ok (t', e) /\ rising t' /\ (quiet o -> reaches t t') /\ (FlowTreeSpec.tmoved t o + MW t' <= MW t + FlowTreeSpec.tout o)%nat.
Proof.
  intros [Hg Hp] Ho. pose proof (smooth_tidy t o Ho) as Ht. destruct (step_good pol sync t o Hg Ht) as (t' & e & H & Hg'). exists t', e.
  destruct (step_eased t o t' e (te_node _ _ _ _ Hg) Hp Ho H) as [_ E2 E3 E4]. split; [done|]. split; [by split|].
  split; [intros Hqu; eapply reaches_step; [done..|apply reaches_refl]|]. destruct (FlowTreeProofs.tstep_cost pol sync t _ t' e (TreeEndMain.good_TI pol sync t Hg) H) as [HW _]. unfold MW. rewrite E4 in HW. lia.
Qed.
Lemma one_op t n nd o : rising t -> t !! n = Some nd -> carries o -> shared t n o = false ->
  exists t' s e, rising t' /\ reaches t t' /\ rlevel t t' /\ (FlowSpec.moved (n_fam nd) o + MW t' <= MW t)%nat /\ nstep n (n_fam nd) o = Ok (s, e) /\ t' !! n = Some (grow nd s o e).
Proof.
  intros Hr Hn Hc Hsh. pose proof (carries_smooth o Hc) as Ho. destruct (rising_step t (TOp n o) Hr Ho) as (t' & e & H & Hr' & Hre & HW). destruct Hr as [Hg Hp].
  assert (Hrd : ready (n_fam nd) o = true) by (by destruct o).
  destruct (op_eased t n o nd t' e (te_node _ _ _ _ Hg) Hp Hn Ho Hsh Hrd H) as (_ & L & s & Hs & Ht'). exists t', s, e. split; [done|]. split; [apply Hre; by destruct o|].
  split; [apply L; intros _; by left|]. cbn [FlowTreeSpec.tmoved FlowTreeSpec.tout] in HW. rewrite Hn, Hsh, Hrd in HW. cbn [negb orb] in HW.
  assert (Ho0 : FlowSpec.outside o = 0%nat) by (by destruct o). split; [lia|done].
Qed.
Definition goes (t : tstate) : Prop := exists t', rising t' /\ reaches t t' /\ rlevel t t' /\ (MW t' < MW t)%nat.
Lemma go_move t n nd : rising t -> t !! n = Some nd -> under_way (n_fam nd) -> goes t.
Proof.
  intros Hr Hn Hu. destruct Hu as [Hq|(c & [Hu|Hd])].
  - destruct (one_op t n nd D1 Hr Hn ltac:(done) eq_refl) as (t' & s & e & H1 & H2 & H3 & H4 & _). exists t'. split_and!; try done. cbn in H4. destruct (f_q (n_fam nd)); [done|lia].
  - destruct (one_op t n nd (FUp c) Hr Hn I eq_refl) as (t' & s & e & H1 & H2 & H3 & H4 & _). exists t'. split_and!; try done. cbn in H4. destruct (upl (n_fam nd) c); [done|lia].
  - destruct (one_op t n nd (FChild c false false) Hr Hn I eq_refl) as (t' & s & e & H1 & H2 & H3 & H4 & _). exists t'. split_and!; try done. cbn in H4. destruct (downl (n_fam nd) c); [done|lia].
Qed.
Lemma go_then t t1 : reaches t t1 -> rlevel t t1 -> (MW t1 <= MW t)%nat -> goes t1 -> goes t.
Proof. intros H1 H2 H3 (t' & A & B & C & D). exists t'. split; [done|]. split; [by eapply reaches_trans|]. split; [by eapply rlevel_trans|lia]. Qed.

Lemma go_or_still t : rising t -> goes t \/ still t.
Proof.
  intros Hr. destruct (TreeEndMain.any_or_all (fun _ nd => under_way (n_fam nd)) (fun _ nd => f_q (n_fam nd) = [] /\ forall c, upl (n_fam nd) c = [] /\ downl (n_fam nd) c = []) t) as [(n & nd & Hn & Hu)|Ha].
  - intros n nd _. apply under_way_or.
  - left. by eapply go_move.
  - right. intros n nd Hn. destruct (Ha n nd Hn) as [H1 H2]. split; [done|]. split; [done|]. destruct (ri_peace _ Hr n nd Hn) as [(_ & _ & _ & ? & _) _]. done.
Qed.
Lemma calm_down k : forall t, (MW t < k)%nat -> rising t -> exists t', rising t' /\ reaches t t' /\ rlevel t t' /\ still t'.
Proof.
  induction k as [|k IH]; intros t Hk Hr; [lia|]. destruct (go_or_still t Hr) as [(t1 & H1 & H2 & H3 & H4)|Hs].
  - destruct (IH t1 ltac:(lia) H1) as (t' & A & B & C & D). exists t'. split; [done|]. split; [by eapply reaches_trans|]. split; [by eapply rlevel_trans|done].
  - exists t. split; [done|]. split; [apply reaches_refl|]. split; [apply rlevel_refl|done].
Qed.
(** Somebody can answer. *)
Lemma who t : rising t -> still t -> forall n nd, starting t n nd -> exists l nd', starting t (l ++ n) nd' /\
  (has_initializing (f_cm (n_fam nd')) = false \/ exists c, c <> 0 /\ t !! (c :: l ++ n) = None /\ state_of (n_fam nd') c = Some AInitializing /\ busy (n_fam nd') c).
Proof.
  intros [Hgood Hpe] Hq. destruct (bounded t) as [M HM].
  assert (Hind : forall k n nd, (M <= length n + k)%nat -> starting t n nd -> exists l nd', starting t (l ++ n) nd' /\
    (has_initializing (f_cm (n_fam nd')) = false \/ exists c, c <> 0 /\ t !! (c :: l ++ n) = None /\ state_of (n_fam nd') c = Some AInitializing /\ busy (n_fam nd') c)).
  { induction k as [|k IH]; intros n nd Hk Hst; pose proof Hst as (Hn & Hs & Hi).
    all: destruct (has_initializing (f_cm (n_fam nd))) eqn:Hw; [|exists [], nd; split; [done|by left]].
    all: assert (Hok : nodeok n nd) by (by apply Hgood). all: destruct (Hpe n nd Hn) as [_ Hnf].
    all: destruct (fam_objects _ _ _ _ _ _ (no_guard _ _ _ _ Hok) (no_run _ _ _ _ Hok) Hw) as (c & Hc & Hcs).
    all: assert (Hrk : rank (cm_state (f_cm (n_fam nd))) < 5) by (unfold sup_state in Hs; by rewrite Hs).
    all: destruct (settled_uninit _ _ _ _ _ _ c (no_guard _ _ _ _ Hok) (no_run _ _ _ _ Hok) (Hq _ _ Hn) Hrk Hc) as [Hl [Hx|[Hx|Hx]]];
      [done| |unfold leaving in Hx; congruence].
    all: destruct (t !! (c :: n)) as [m|] eqn:Hm; [|exists [], nd; split; [done|]; right; exists c; destruct Hc as [? _]; by split_and!].
    - apply HM in Hm. cbn in Hm. lia.
    - pose proof (good_link pol sync t c n m nd Hgood Hm Hn) as L. destruct (IH (c :: n) m) as (l & nd' & H1 & H2).
      + cbn. lia.
      + destruct Hx as [_ (ch & Hch & Hci)]. pose proof (lk_state _ _ _ _ _ _ L) as Hls. rewrite Hcs in Hls. injection Hls as Hls. split; [done|]. split; [done|].
        rewrite <-(lk_init _ _ _ _ _ _ L ch Hch); [done|]. unfold state_of in Hcs. rewrite Hch in Hcs. cbn in Hcs. congruence.
      + exists (l ++ [c]), nd'. by rewrite <-(assoc_L (++)). }
  intros n nd. apply (Hind M). lia.
Qed.
(** A child supervisor answers. *)
Lemma inited t p c pd m : rising t -> t !! p = Some pd -> starting t (c :: p) m -> has_initializing (f_cm (n_fam m)) = false ->
  exists t' s, rising t' /\ reaches t t' /\ (MW t' <= MW t)%nat /\ (c :: p <> r -> rlevel t t') /\ under_way s /\ (exists o e, t' !! p = Some (grow pd s o e)) /\ exists m', t' !! (c :: p) = Some m' /\ sup_state m' = AInitialized.
Proof.
  intros Hr Hp (Hm & Hst & Hq) Hi. destruct (rising_step t (TInited p c) Hr I) as (t' & e & H & Hr' & Hre & HW). pose proof Hr as [Hg Hpe].
  cbn [TreeModel.tstep] in H. rewrite Hm in H. assert (Hrd : ready (n_fam m) FInitialized = true) by (cbn; unfold handle_init; by rewrite Hi). rewrite Hrd in H.
  destruct (both_eased t p c FInitialized (FChildInit c false) t' e (te_node _ _ _ _ Hg) Hpe ltac:(by left) ltac:(by left) H) as (_ & L & Sc & Sp).
  destruct (Sc m Hm) as (sm & em & Em & Em'). destruct (Sp pd Hp) as (s & Es & Es'). exists t', s. split; [done|]. split; [by apply Hre|].
  split; [cbn in HW; lia|]. split; [intros Hne; apply L; [done|intros _; by left]|].
  pose proof (good_link pol sync t c p m pd Hg Hm Hp) as K. pose proof (lk_state _ _ _ _ _ _ K) as Hcs. rewrite Hst in Hcs.
  destruct (te_par _ _ _ _ Hg c p m Hm) as (pd' & Hp' & Hcr). rewrite Hp in Hp'. injection Hp' as <-.
  split; [|split; [by eexists _, _|]].
  - eapply child_answers; [| exact Hcs| |exact Es].
    + destruct (h_next _ _ (ai_h _ _ _ (fi_all _ _ (no_fin _ _ _ _ (te_node _ _ _ _ Hg p pd Hp)))) c Hcr). done.
    + unfold state_of in Hcs. destruct (cm_children (f_cm (n_fam pd)) !! c) as [ch|] eqn:Hch; [|done]. cbn in Hcs. injection Hcs as Hcs. exists ch. split; [done|]. rewrite (lk_init _ _ _ _ _ _ K ch Hch Hcs). done.
  - eexists. split; [exact Em'|]. unfold sup_state. cbn. by eapply answers.
Qed.


(** The supervisor can be told to go on by its other plugins. *)
Lemma agrees k : forall t rd, (MW t < k)%nat -> rising t -> t !! r = Some rd -> sup_state rd = AInitializing -> r = [] \/ cm_initreq (f_cm (n_fam rd)) = true ->
  exists t' rd', rising t' /\ reaches t t' /\ starting t' r rd' /\ has_initializing (f_cm (n_fam rd')) = false.
Proof.
  induction k as [|k IH]; intros t rd Hk Hr Hrd Hst Hin; [lia|].
  assert (Hgo : goes t -> exists t' rd', rising t' /\ reaches t t' /\ starting t' r rd' /\ has_initializing (f_cm (n_fam rd')) = false).
  { intros (t1 & H1 & H2 & H3 & H4). destruct (H3 rd Hrd) as (rd1 & Hrd1 & Hl1 & Hl2). unfold sup_state in Hst.
    destruct (IH t1 rd1) as (t' & rd' & A & B & C); [lia|done|done|unfold sup_state; congruence|destruct Hin; auto|]. exists t', rd'. split; [done|]. split; [by eapply reaches_trans|done]. }
  destruct (go_or_still t Hr) as [Hx|Hs]; [by apply Hgo|]. pose proof Hr as [Hg Hpe].
  assert (Hin' : cm_initreq (f_cm (n_fam rd)) = true).
  { destruct Hin as [-> |]; [|done]. destruct (Hpe _ _ Hrd) as [_ Hnf]. destruct (Hs _ _ Hrd) as (Q & _ & Qb).
    destruct (requested_reach _ _ _ _ _ (node_reach [] rd (te_node _ _ _ _ Hg _ _ Hrd)) eq_refl Hst) as [?|Hx]; [|done|done|rewrite Q in Hx; by apply elem_of_nil in Hx].
    intros Hx. apply Hnf. by left. }
  assert (Hstart : starting t r rd) by done.
  destruct (who t Hr Hs r rd Hstart) as (l & nd & Hsn & Hw). destruct Hw as [Hi|(c & Hc0 & Hno & Hcs & Hb)].
  - destruct l as [|c l]; [exists t, nd; split; [done|]; split; [apply reaches_refl|done]|]. cbn [app] in Hsn.
    destruct (te_par _ _ _ _ Hg c (l ++ r) nd) as (pd & Hpd & _); [by destruct Hsn|].
    destruct (inited t (l ++ r) c pd nd Hr Hpd Hsn Hi) as (t1 & s & H1 & H2 & H3 & H4 & H5 & (o & e & H6) & _). apply Hgo. eapply go_then; [exact H2|apply H4|done|by eapply go_move].
    intros Hx. apply (f_equal length) in Hx. cbn in Hx. rewrite app_length in Hx. lia.
  - destruct Hsn as (Hn & _ & _). destruct (one_op t (l ++ r) nd (FChildInit c false) Hr Hn eq_refl) as (t1 & s & e & H1 & H2 & H3 & H4 & H5 & H6).
    { cbn. apply bool_decide_false. intros [m Hm]. congruence. }
    apply Hgo. cbn in H4. eapply go_then; [exact H2|exact H3|lia|]. eapply go_move; [done|exact H6|]. cbn. eapply child_answers; [exact Hc0|exact Hcs| |exact H5]. by destruct Hb as [_ ?].
Qed.
(** It answers. *)
Lemma root_answers t rd : r = [] -> rising t -> starting t [] rd -> has_initializing (f_cm (n_fam rd)) = false ->
  exists t' rd', rising t' /\ reaches t t' /\ t' !! [] = Some rd' /\ sup_state rd' = AInitialized.
Proof.
  intros Hroot Hr (Hn & Hst & Hq) Hi. destruct (rising_step t (TOp [] FInitialized) Hr I) as (t' & e & H & Hr' & Hre & _). pose proof Hr as [Hg Hpe].
  assert (Hrd : ready (n_fam rd) FInitialized = true) by (cbn; unfold handle_init; by rewrite Hi).
  destruct (op_eased t [] FInitialized rd t' e (te_node _ _ _ _ Hg) Hpe Hn I eq_refl Hrd H) as (_ & _ & s & Hs & Ht').
  eexists _, _. split; [done|]. split; [by apply Hre|]. split; [exact Ht'|]. unfold sup_state. cbn. by eapply answers.
Qed.
Lemma root_starts t rd : rising t -> t !! [] = Some rd -> sup_state rd = AInitialized ->
  exists t' rd', rising t' /\ (exists e, tstep t (TOp [] FStarted) = Ok (t', e)) /\ t' !! [] = Some rd' /\ sup_state rd' = AOperational /\ ESupStart ∈ n_ev rd'.
Proof.
  intros Hr Hn Hst. destruct (rising_step t (TOp [] FStarted) Hr I) as (t' & e & H & Hr' & Hre & _). pose proof Hr as [Hg Hpe].
  destruct (op_eased t [] FStarted rd t' e (te_node _ _ _ _ Hg) Hpe Hn I eq_refl eq_refl H) as (_ & _ & s & Hs & Ht'). destruct (starts _ _ _ _ _ _ Hs Hst) as [H1 H2].
  eexists _, _. split; [done|]. split; [by exists e|]. split; [exact Ht'|]. unfold sup_state. cbn. split; [done|]. apply elem_of_app. by right.
Qed.
Lemma ready_sup t rd : rising t -> t !! r = Some rd -> sup_state rd = AInitializing -> r = [] \/ cm_initreq (f_cm (n_fam rd)) = true ->
  exists t' rd', rising t' /\ reaches t t' /\ t' !! r = Some rd' /\ sup_state rd' = AInitialized /\ still t'.
Proof.
  intros Hr Hrd Hst Hin. destruct (agrees (Datatypes.S (MW t)) t rd ltac:(lia) Hr Hrd Hst Hin) as (t1 & rd1 & H1 & H2 & H3 & H4).
  assert (H : exists t2 rd2, rising t2 /\ reaches t1 t2 /\ t2 !! r = Some rd2 /\ sup_state rd2 = AInitialized).
  { destruct (decide (r = [])) as [Er|Er].
    - destruct (root_answers t1 rd1 Er H1) as (t2 & rd2 & H); [by rewrite <-Er|done|]. exists t2, rd2. by rewrite Er.
    - destruct (list_eq_nil_dec r) as [?|_]; [done|]. assert (E : exists c p, r = c :: p) by (destruct r as [|c p]; [done|by exists c, p]). destruct E as (c & p & E). pose proof H1 as [Hg1 _].
      rewrite E in H3. destruct (te_par _ _ _ _ Hg1 c p rd1) as (pd & Hpd & _); [by destruct H3|].
      destruct (inited t1 p c pd rd1 H1 Hpd H3 H4) as (t2 & s & A & B & _ & _ & _ & _ & m & C & D). exists t2, m. rewrite E. by split_and!. }
  destruct H as (t2 & rd2 & A & B & C & D). destruct (calm_down (Datatypes.S (MW t2)) t2 ltac:(lia) A) as (t3 & A3 & B3 & C3 & D3). destruct (C3 rd2 C) as (rd3 & C4 & L & _).
  exists t3, rd3. split; [done|]. split; [eapply reaches_trans; [exact H2|]; by eapply reaches_trans|]. split; [done|]. split; [|done]. unfold sup_state in *. congruence.
Qed.
End tree.

Section claims.
Context (pol : list N -> spolicy) (sync : list N -> bool).
Notation tstep := (tstep pol sync).
Lemma tree_rising ops t ev : guarded tstep tidy tinit ops -> run tstep tinit ops = Ok (t, ev) -> tpeaceful t -> rising pol sync t.
Proof. intros Hg Hr Hp. split; [by eapply tree_good|done]. Qed.
Lemma tree_initializes ops t ev r rd : guarded tstep tidy tinit ops -> run tstep tinit ops = Ok (t, ev) -> tpeaceful t -> starting t r rd ->
  exists ops' t' e rd', Forall tsmooth ops' /\ guarded tstep tidy t ops' /\ run tstep t ops' = Ok (t', e) /\ t' !! r = Some rd' /\ sup_state rd' = AInitialized /\ tpeaceful t' /\ still t'.
Proof.
  intros Hg Hr Hp (Hn & Hst & Hq). destruct (ready_sup pol sync r t rd) as (t' & rd' & [_ A] & (ops' & e & B1 & B2 & B3) & C & D & E); [by eapply tree_rising|done|done|by right|].
  exists ops', t', e, rd'. split; [|done]. eapply Forall_impl; [exact B1|]. by intros o [? _].
Qed.
Lemma tree_up ops t ev rd : guarded tstep tidy tinit ops -> run tstep tinit ops = Ok (t, ev) -> tpeaceful t -> t !! [] = Some rd -> sup_state rd = AInitializing ->
  exists ops' t' e rd', Forall tsmooth ops' /\ guarded tstep tidy t ops' /\ run tstep t ops' = Ok (t', e) /\ t' !! [] = Some rd' /\ sup_state rd' = AOperational /\ ESupStart ∈ n_ev rd' /\ tpeaceful t'.
Proof.
  intros Hg Hr Hp Hn Hst. destruct (ready_sup pol sync [] t rd) as (t' & rd' & A & B & C & D & E); [by eapply tree_rising|done|done|by left|].
  destruct (root_starts pol sync [] t' rd' A C D) as (t2 & rd2 & [_ A2] & (e2 & B2) & C2 & D2 & E2). destruct B as (ops' & e & F1 & F2 & F3).
  exists (ops' ++ [TOp [] FStarted]), t2, (e ++ e2), rd2. split_and!; try done.
  - apply Forall_app. split; [|by repeat constructor]. eapply Forall_impl; [exact F1|]. by intros o [? _].
  - eapply guarded_app; [exact F2|exact F3|]. cbn [guarded]. split; [cbn; by rewrite C|]. by rewrite B2.
  - rewrite run_app, F3. cbn [rbind run]. rewrite B2. cbn. by rewrite app_nil_r.
Qed.
Lemma tree_smooth ops t ev ops' t' e : guarded tstep tidy tinit ops -> run tstep tinit ops = Ok (t, ev) -> tpeaceful t -> Forall tsmooth ops' -> run tstep t ops' = Ok (t', e) ->
  tpeaceful t' /\ guarded tstep tidy tinit (ops ++ ops').
Proof.
  intros Hg Hr Hp. assert (Hi : rising pol sync t) by (by eapply tree_rising).
  assert (H : forall t, rising pol sync t -> Forall tsmooth ops' -> forall t' e, run tstep t ops' = Ok (t', e) -> tpeaceful t' /\ guarded tstep tidy t ops').
  { clear. induction ops' as [|o ops' IH]; intros t Ht Ho t' e H; cbn in H; [injection H as <- <-; split; [by destruct Ht|done]|]. apply Forall_cons in Ho as [Ho Hops].
    destruct (rising_step pol sync [] t o Ht Ho) as (t1 & e1 & H1 & Hr1 & _). rewrite H1 in H. cbn in H. destruct (run tstep t1 ops') as [[t2 e2]| |] eqn:H2; try done. cbn in H. injection H as <- <-.
    destruct (IH t1 Hr1 Hops t2 e2 H2) as [A B]. split; [done|]. cbn. split; [by apply smooth_tidy|]. by rewrite H1. }
  intros Ho H'. destruct (H t Hi Ho t' e H') as [A B]. split; [done|]. by eapply guarded_app.
Qed.
Lemma tree_open ops t ev ops' t' e rd : guarded tstep tidy tinit ops -> run tstep tinit ops = Ok (t, ev) -> tpeaceful t -> Forall tsmooth ops' -> run tstep t ops' = Ok (t', e) ->
  t' !! [] = Some rd -> sup_state rd = AInitializing ->
  exists ops2 t2 e2 rd2, Forall tsmooth ops2 /\ guarded tstep tidy t' ops2 /\ run tstep t' ops2 = Ok (t2, e2) /\ t2 !! [] = Some rd2 /\ sup_state rd2 = AOperational /\ ESupStart ∈ n_ev rd2 /\ tpeaceful t2.
Proof.
  intros Hg Hr Hp Ho H Hn Hst. destruct (tree_smooth ops t ev ops' t' e Hg Hr Hp Ho H) as [Hp' Hg']. eapply tree_up; [exact Hg'| |done|done|done]. rewrite run_app, Hr. cbn. by rewrite H.
Qed.
End claims.
