(** C74: a tree of supervisors which is told to end can end. *)
From stdpp Require Import base list gmap.
From Verif Require Import Base ChildMgrModel ChildMgrSpec ChildMgrProofs ChildMgrTrace FamilyModel FamilySpec FamilySteps FamilyInv FamilyProofs TreeModel TreeSpec.
From Verif Require Import FamilyEndSpec FamilyEndProofs FamilyEndMain FamilyEndFacts.
From Verif Require FlowSpec FlowInv FlowProofs FlowTreeSpec FlowTreeProofs TreeInv TreeNode TreeFacts.
From Verif Require Import TreeProofs TreeEndSpec.
Open Scope N_scope.
Notation W := FlowTreeProofs.W.
Notation tborn := FlowTreeSpec.tborn.
Notation tsups := FlowTreeSpec.tsups.
Notation births := FlowSpec.births.
Notation msum := FlowInv.msum.

(** ** One supervisor *)
Definition gentle (o : fop) : Prop :=
  match o with FCreate _ _ | FSpawn _ | FFire _ => False | FDeliver ok _ _ _ _ _ _ => ok = false | _ => True end.
Section node.
Context (hp : bool) (policy : spolicy) (sync : bool).
Notation step := (cstep hp policy sync).
Notation fstep := (fstep hp policy sync).

Lemma cstep_nonew s o s' e : match o with OCreate | OSpawn _ | OOnSpawn _ true | OChild _ _ => False | _ => True end -> step s o = Ok (s', e) -> nonew e.
Proof.
  intros Hp H. destruct o; try done; cbn -[on_spawn on_create on_init remove_child handle_shutdown deactivate on_shutdown_confirm on_shutdown_trigger handle_start on_spawn_timer] in H;
    try (injection H as <- <-; by repeat constructor).
  - destruct ok; [done|]. destruct (take_first a (cm_spawnq s)) as [q|]; [|injection H as <- <-; constructor]. unfold on_spawn in H. cbn in H.
    destruct (cm_map s !! a) as [i|]; [|done]. destruct (negb _); [injection H as <- <-; constructor|].
    match type of H with match ?p with _ => _ end = _ => assert (H1 : nonew p.1.2) by (clear H; repeat case_match; cbn [snd fst]; try apply nonew_self; try apply nonew_one; try constructor; by intros []); destruct p as [[s1 e1] t1] end.
    cbn in H1. destruct t1; injection H as <- <-; (constructor; [by intros []|]); [|done]. apply nonew_app; [done|]. apply nonew_one. by intros [].
  - destruct (take_first a (cm_createq s)) as [q|]; [|injection H as <- <-; constructor]. unfold on_create in H. destruct (cm_map _ !! a); [|done]. injection H as <- <-. apply nonew_one. by intros [].
  - destruct (bool_decide _); [|injection H as <- <-; constructor]. unfold on_init in H. cbn in H. destruct failed.
    + destruct (_ && _).
      { destruct (cm_initreq s); [destruct (a =? 0)|]; injection H as <- <-; try apply nonew_self. apply nonew_one. by intros []. }
      destruct (cm_map s !! a) as [i|]; [destruct (ci_actor i) as [c|]; [|done]|]; injection H as <- <-; [destruct (c =? 0)|]; try apply nonew_self.
      unfold child_shutdown. repeat case_match; try constructor; [by intros []|constructor].
    + destruct (cm_map s !! a) as [i|]; injection H as <- <-; [apply (nonew_app (_ :: _))|]; [constructor; [by intros []|]; case_match; by repeat constructor; intros []| |]; destruct (negb _); try constructor; apply nonew_cont.
  - unfold on_shutdown_trigger in H. destruct (cm_map s !! a) as [i|]; [|done]. unfold request_shutdown in H. destruct (ci_shut i); [|injection H as <- <-; constructor..].
    destruct (ci_actor i) as [c|]; [|done]. destruct (cancel_init_eq s c) as [x Hx]. rewrite Hx in H. destruct (c =? 0).
    + destruct hp; [injection H as <- <-; apply nonew_self|]. destruct (bool_decide _); [injection H as <- <-; constructor|].
      match type of H with context [request_shutdown_all ?t] => pose proof (nonew_all t) as Hn; destruct (request_shutdown_all t) as [s3 e3] end. injection H as <- <-. cbn in Hn.
      constructor; [by intros []|]. apply nonew_app; [done|]. apply nonew_one. by intros [].
    + injection H as <- <-. apply nonew_one. by intros [].
  - destruct (bool_decide _); [|injection H as <- <-; constructor]. unfold on_shutdown_confirm in H. cbn in H. destruct (cm_map s !! a) as [i|]; [|done]. destruct (ci_actor i) as [c|]; [|done].
    assert (Ho : forall t, nonew (on_child_shutdown t a)) by (clear H; intros t; unfold on_child_shutdown; case_match; [apply nonew_one; by intros []|constructor]).
    destruct subs; [injection H as <- <-; apply Ho|]. destruct (remove_child policy _ a ask) as [[s2 e2]| |] eqn:Er; [|done..]. cbn in H. injection H as <- <-.
    apply remove_plain in Er as [E1 E2]. by apply nonew_app.
  - destruct (bool_decide _); [|injection H as <- <-; constructor]. by apply remove_plain in H as [E1 E2].
  - injection H as <- <-. apply nonew_one. by intros [].
  - destruct (bool_decide _); [|injection H as <- <-; constructor]. unfold handle_shutdown in H. destruct (cm_map s !! 0) as [i|]; [|done].
    pose proof (nonew_all (put_info s 0 (i_shut i SConfirmed))) as Hn.
    destruct (request_shutdown_all _) as [s1 e1]. injection H as <- <-. cbn in Hn. apply nonew_app; [done|apply nonew_one; by intros []].
  - destruct (bool_decide _); [|injection H as <- <-; constructor]. unfold handle_start in H. destruct sync; injection H as <- <-; (constructor; [by intros []|]); [|constructor].
    apply nonew_in. intros x Hx. apply elem_of_list_omap in Hx as ([a i] & _ & Hx). destruct (a =? 0); [done|]. injection Hx as <-. by intros [].
  - destruct (cm_timers s !! id) as [d|]; [|injection H as <- <-; constructor]. destruct (d <=? cm_now s); [|injection H as <- <-; constructor]. unfold on_spawn_timer in H.
    destruct (cm_spawning s !! id) as [k|]; [|done]. destruct (cm_map _ !! k) as [i|]; [|done]. destruct (_ <=? 4); injection H as <- <-; [|constructor]. apply nonew_one. by intros [].
  - destruct (sup_moves hp (cm_state s) s0); injection H as <- <-; constructor.
  - destruct (bool_decide _); [|injection H as <- <-; constructor]. unfold deactivate in H. destruct (_ && _); [|injection H as <- <-; constructor].
    by apply remove_plain in H as [E1 E2].
Qed.

Lemma gentle_fits o co : gentle o -> fits o co -> match co with OCreate | OSpawn _ | OOnSpawn _ true | OChild _ _ | OFire _ => False | _ => True end.
Proof.
  intros Hg Hf. destruct co; try done; cbn in Hf.
  - by destruct Hf as (x & y & ->).
  - by subst.
  - destruct ok; [|done]. by destruct Hf as (x1 & x2 & x3 & x4 & x5 & x6 & ->).
  - by subst.
Qed.

Definition voted (s : cstate) : Prop := 5 <= rank (cm_state s) /\ all_asked s.
Global Instance voted_dec s : Decision (voted s).
Proof.
  unfold voted. apply and_dec; [apply _|]. change (Decision (map_Forall (fun _ i => match ci_actor i with Some _ => ci_shut i <> SNone | None => ci_active i = false /\ ci_timer i = 0 end) (cm_map s))).
  apply map_Forall_dec. intros _ i. destruct (ci_actor i); apply _.
Defined.
Definition b (s : fstate) : nat :=
  (if decide (f_phase s = PWorking) then if decide (voted (f_cm s)) then 1 else 2 else 0) + (if decide (f_phase s = PLeft) then 0 else 1) +
  (if decide (0 ∈ f_bye s) then 0 else 1).

Lemma stay s o s' e : gentle o -> o <> FShutDown -> cm_state (f_cm s) = AShuttingDown -> fstep s o = Ok (s', e) -> cm_state (f_cm s') = AShuttingDown.
Proof.
  intros Hg Hn Hst H. assert (Hc := H). apply fstep_cases in Hc as [(M & HM & ->)|(x & co & Hc & Hf)]; [by rewrite HM|].
  assert (Hco : (exists st, co = OState st) \/ plain_op co). { pose proof (gentle_fits o co Hg Hf) as Hx. destruct co; eauto. }
  destruct Hco as [[st ->]|Hp]; [|by destruct (cstep_plain hp policy sync _ co _ _ Hp (Hst : cm_state (set_initout (f_cm s) x) = _) Hc)].
  destruct Hf as [->|[->| ->]]; [..|done].
  - cbn [FamilyModel.fstep] in H. rewrite bool_decide_false in H by (by rewrite Hst). by injection H as <- _.
  - cbn [FamilyModel.fstep] in H. destruct hp; [|by injection H as <- _]. apply manage_cm in H. cbn in H. rewrite Hst in H. cbn in H. injection H as H _. by rewrite <- H.
Qed.
Lemma voted_kept s o s' e : cinv (f_cm s) -> gentle o -> fstep s o = Ok (s', e) -> nonew e /\ (voted (f_cm s) -> voted (f_cm s')) /\ (no_lost (f_cm s) -> no_lost (f_cm s')).
Proof.
  intros Hv Hg H. assert (Hpu : punctual s o) by (by destruct o).
  assert (Hl : no_lost (f_cm s) -> no_lost (f_cm s')). { intros Hl. by destruct (no_lost_fstep hp policy sync s o s' e Hv Hpu Hl H). }
  apply fstep_cases in H as [(M & HM & ->)|(x & co & H & Hf)].
  - split; [constructor|]. split; [by rewrite HM|done].
  - pose proof (gentle_fits o co Hg Hf) as Hco. assert (Hn : nonew e). { eapply cstep_nonew; [|exact H]. by destruct co. }
    split; [done|]. split; [|done]. intros [Hr Ha]. assert (Hv' : cinv (set_initout (f_cm s) x)) by (by apply FlowProofs.cinv_initout).
    assert (Hms := step_moves hp policy sync False _ _ _ _ Hv' ltac:(by destruct co) H). split; [by eapply moves_rank|]. by eapply asked_moves.
Qed.
Lemma phase_fwd s o s' e : fstep s o = Ok (s', e) -> f_phase s <> PWorking -> f_phase s' <> PWorking.
Proof.
  intros H Hp Hn. apply TreeInv.step_shape in H as [fo ea co s1 s2 l P Hm Hs Hfi Hl|He So].
  - subst s'. cbn in Hn. rewrite (TreeNode.manage_phase hp policy sync _ _ _ _ _ _ Hm) in Hn. destruct (decide _) as [|Hx]; [done|].
    destruct (TreeInv.pr_phase _ _ _ P) as [Hq|[_ Hq]]; congruence.
  - rewrite (TreeInv.so_phase _ _ So) in Hn. done.
Qed.
Lemma phase_new s o s' e : fstep s o = Ok (s', e) -> f_phase s = PWorking -> f_phase s' <> PWorking -> EVoteShutdown true ∈ e.
Proof.
  intros H Hp Hn. apply TreeInv.step_shape in H as [fo ea co s1 s2 l P Hm Hs Hfi Hl|He So].
  - subst s'. cbn in Hn. rewrite (TreeNode.manage_phase hp policy sync _ _ _ _ _ _ Hm) in Hn. destruct (decide _) as [|Hx]; [done|].
    destruct (TreeInv.pr_phase _ _ _ P) as [Hq|[Hq _]]; congruence.
  - rewrite (TreeInv.so_phase _ _ So) in Hn. done.
Qed.
End node.

(** ** The tree *)
Section tree.
Context (pol : list N -> spolicy) (sync : list N -> bool).
Notation nstep := (nstep pol sync).
Notation local := (local pol sync).
Notation tstep := (tstep pol sync).
Notation nodeok := (nodeok pol sync).
Notation good := (tinv pol sync (fun _ => False)).

Lemma node_calm n nd o s e : nodeok n nd -> gentle o -> nstep n (n_fam nd) o = Ok (s, e) ->
  (b s <= b (n_fam nd))%nat /\ births e = 0%nat /\ (f_phase s = PWorking -> f_phase (n_fam nd) = PWorking) /\ (no_lost (f_cm (n_fam nd)) -> no_lost (f_cm s)).
Proof.
  intros Hn Hg H. pose proof (no_fin _ _ _ _ Hn) as Hf. assert (Hv : cinv (f_cm (n_fam nd))) by (by destruct (fi_all _ _ Hf)).
  destruct (voted_kept _ _ _ _ _ _ _ Hv Hg H) as (Hnn & Hvo & Hl).
  assert (Hfw : f_phase s = PWorking -> f_phase (n_fam nd) = PWorking). { intros Hp. destruct (decide (f_phase (n_fam nd) = PWorking)) as [|Hx]; [done|]. by destruct (phase_fwd _ _ _ _ _ _ _ H Hx). }
  split; [|split; [by apply nonew_births|done]].
  assert (Hle : f_phase (n_fam nd) = PLeft -> f_phase s = PLeft) by (by eapply left_kept).
  assert (Hby : 0 ∈ f_bye (n_fam nd) -> 0 ∈ f_bye s) by (by eapply TreeNode.bye_sub).
  unfold b. apply Nat.add_le_mono; [apply Nat.add_le_mono|].
  - destruct (decide (f_phase s = PWorking)) as [P1|P1]; [|lia]. rewrite (decide_True _ _ (Hfw P1)). destruct (decide (voted (f_cm s))) as [|Q]; [destruct (decide _); lia|].
    rewrite decide_False by auto. lia.
  - destruct (decide (f_phase s = PLeft)) as [|P1]; [lia|]. rewrite decide_False by auto. lia.
  - destruct (decide (0 ∈ f_bye s)) as [|P1]; [lia|]. rewrite decide_False by auto. lia.
Qed.

Definition B (t : tstate) : nat := msum (fun _ nd => b (n_fam nd)) t.
Context (r : list N).
Definition quiet (t : tstate) : Prop := forall l a, ~ lost_at t (l ++ r) a.
Definition rootd (t : tstate) : Prop := exists nd, t !! r = Some nd /\ sup_state nd = AShuttingDown.
Definition alln (t : tstate) : Prop := forall n nd, t !! n = Some nd -> nodeok n nd.
Record calmer (t t' : tstate) : Prop := {
  ca_B : (B t' <= B t)%nat; ca_born : tborn t' = tborn t; ca_sups : tsups t' = tsups t; ca_q : quiet t -> quiet t'; ca_r : rootd t -> rootd t' }.
Lemma calmer_refl t : calmer t t.
Proof. by split. Qed.
Lemma calmer_trans t1 t2 t3 : calmer t1 t2 -> calmer t2 t3 -> calmer t1 t3.
Proof. intros [A1 A2 A3 A4 A5] [B1 B2 B3 B4 B5]. split; [lia|congruence|congruence|auto|auto]. Qed.

Lemma local_calm t n o t' e : alln t -> gentle o -> (forall nd, t !! n = Some nd -> orderly (n_fam nd) o) -> (n = r -> o <> FShutDown) -> local t n o = Ok (t', e) ->
  alln t' /\ calmer t t' /\ (forall nd, t !! n = Some nd -> exists s, nstep n (n_fam nd) o = Ok (s, e) /\ t' = <[n := grow nd s o e]> t /\ (B t' + b (n_fam nd) = B t + b s)%nat) /\
  (forall m, m <> n -> t' !! m = t !! m).
Proof.
  intros Ha Hg Ho Hr H. assert (Hsz := H). apply FlowTreeProofs.local_size in Hsz. unfold TreeModel.local in H. destruct (t !! n) as [nd|] eqn:En.
  2:{ injection H as <- <-. split; [done|]. split; [apply calmer_refl|]. by split. }
  destruct (nstep n (n_fam nd) o) as [[s e1]| |] eqn:E; [|done..]. cbn in H. injection H as <- <-.
  assert (Hn := Ha _ _ En). destruct (node_step pol sync n nd o Hn (Ho _ eq_refl) ltac:(by destruct o)) as (s' & e' & E' & Hn'). rewrite E in E'. injection E' as <- <-.
  destruct (node_calm n nd o s e1 Hn Hg E) as (H1 & H2 & H3 & H4).
  pose proof (FlowTreeProofs.t_upd (fun _ nd => b (n_fam nd)) t n nd (grow nd s o e1) En) as HB. cbn beta in HB. cbn [n_fam grow] in HB. unfold grow in Hn', HB.
  split; [|split; [|split]].
  - intros m md Hm. destruct (decide (n = m)) as [<-|Hne]; [rewrite t_eq in Hm; by injection Hm as <-|rewrite t_ne in Hm by done; by apply Ha].
  - split.
    + unfold B in *. lia.
    + pose proof (FlowTreeProofs.t_upd (fun _ nd => births (n_ev nd)) t n nd (grow nd s o e1) En) as HC. cbn beta in HC. cbn [n_ev grow] in HC. rewrite FlowInv.births_app in HC. unfold FlowTreeSpec.tborn, grow in *. lia.
    + done.
    + intros Hq l a (md & Hm & Hp & Hl). destruct (decide (n = l ++ r)) as [->|Hne].
      * rewrite t_eq in Hm. injection Hm as <-. cbn in Hp, Hl. eapply H4; [|exact Hl]. intros a' Hl'. apply (Hq l a'). exists nd. auto.
      * rewrite t_ne in Hm by done. apply (Hq l a). by exists md.
    + intros (rd & Hrd & Hst). destruct (decide (n = r)) as [->|Hne]; [|exists rd; by rewrite t_ne].
      rewrite En in Hrd. injection Hrd as <-. eexists. rewrite t_eq. split; [done|]. cbn. eapply stay; [exact Hg|by apply Hr|exact Hst|exact E].
  - intros nd' [= <-]. exists s. split; [done|]. split; [done|]. unfold B, grow in *. lia.
  - intros m Hm. by rewrite t_ne.
Qed.
Lemma upcalls_calm n l : forall t t', alln t -> upcalls pol sync t n l = Ok t' -> alln t' /\ calmer t t' /\ t' !! n = t !! n.
Proof.
  induction l as [|x l IH]; intros t t' Ha H; cbn [TreeModel.upcalls] in H; [injection H as <-; split; [done|]; split; [apply calmer_refl|done]|].
  destruct (upcall pol sync t n x) as [[t1 e1]| |] eqn:E; [|done..]. cbn in H.
  assert (Hx : alln t1 /\ calmer t t1 /\ t1 !! n = t !! n).
  { unfold upcall in E. destruct n as [|c p]; [injection E as <- <-; split; [done|]; split; [apply calmer_refl|done]|].
    destruct x; try (injection E as <- <-; split; [done|]; split; [apply calmer_refl|done]).
    all: apply local_calm in E as (E1 & E2 & _ & E3); [|done..]; split; [done|]; split; [done|]; apply E3, cons_ne. }
  destruct Hx as (H1 & H2 & H3). apply IH in H as (H4 & H5 & H6); [|done]. split; [done|]. split; [by eapply calmer_trans|congruence].
Qed.
Lemma downcall_gentle s o c oc : downcall s o = Some (c, oc) -> oc = FParentInit \/ oc = FParentShutdown.
Proof.
  assert (Hh : forall d m, handled s d m = Some (c, oc) -> oc = FParentInit \/ oc = FParentShutdown).
  { intros d m. unfold handled. case_decide; [done|]. destruct m; try done; intros [= _ <-]; auto. }
  destruct o; try done; cbn.
  - destruct (f_q s) as [|m q]; [done|]. destruct m; try done; (destruct (_ || _); [done|]); apply Hh.
  - destruct (downl s c0) as [|m l]; [done|]. apply Hh.
Qed.
Lemma op_calm t n o nd t' e : good t -> t !! n = Some nd -> orderly (n_fam nd) o -> gentle o -> (n = r -> o <> FShutDown) -> shared t n o = false -> ready (n_fam nd) o = true ->
  tstep t (TOp n o) = Ok (t', e) ->
  calmer t t' /\ exists s, nstep n (n_fam nd) o = Ok (s, e) /\ (B t' + b (n_fam nd) <= B t + b s)%nat /\ t' !! n = Some (grow nd s o e).
Proof.
  intros Ht En Ho Hg Hr Hsh Hre H. assert (Ha : alln t) by exact (te_node _ _ _ _ Ht). cbn [TreeModel.tstep] in H. rewrite En, Hsh, Hre in H. cbn [negb orb] in H.
  destruct (local t n o) as [[t1 e1]| |] eqn:E1; [|done..]. cbn [rbind] in H.
  apply local_calm in E1 as (A1 & C1 & S1 & _); [|done|done|intros nd'; rewrite En; by intros [= <-]|done]. destruct (S1 nd En) as (s & Hs & Ht1 & HB).
  assert (Hd : forall t2 e2, (match downcall (n_fam nd) o with Some (c, oc) => local t1 (c :: n) oc | None => Ok (t1, []) end) = Ok (t2, e2) -> alln t2 /\ calmer t1 t2 /\ t2 !! n = t1 !! n).
  { intros t2 e2. destruct (downcall (n_fam nd) o) as [[c oc]|] eqn:Ed; [|intros [= <- <-]; split; [done|]; split; [apply calmer_refl|done]].
    apply downcall_gentle in Ed. intros E2. apply local_calm in E2 as (E3 & E4 & _ & E5); [|done|by destruct Ed as [-> | ->]..].
    split; [done|]. split; [done|]. apply E5. intros Hx. by eapply cons_ne. }
  destruct (match downcall (n_fam nd) o with Some (c, oc) => local t1 (c :: n) oc | None => Ok (t1, []) end) as [[t2 e2]| |]; [|done..]. cbn [rbind] in H.
  destruct (Hd _ _ eq_refl) as (A2 & C2 & S2). destruct (upcalls pol sync t2 n e1) as [t3| |] eqn:E3; [|done..]. cbn in H. injection H as <- <-.
  apply upcalls_calm in E3 as (A3 & C3 & S3); [|done].
  split; [by eapply calmer_trans; [|eapply calmer_trans]|]. exists s. split; [done|]. split.
  - pose proof (ca_B _ _ C2). pose proof (ca_B _ _ C3). lia.
  - rewrite S3, S2, Ht1. apply t_eq.
Qed.
Lemma done_calm t p c pd m t' e : c :: p <> r -> good t -> t !! p = Some pd -> t !! (c :: p) = Some m -> tstep t (TDone p c) = Ok (t', e) ->
  calmer t t' /\ (0 ∈ f_bye (n_fam m) -> c ∈ f_bye (n_fam pd) -> exists s, nstep p (n_fam pd) (FChildDone c) = Ok (s, e) /\ t' !! p = Some (grow pd s (FChildDone c) e)).
Proof.
  intros Hcr Ht Hp Hm H. cbn [TreeModel.tstep] in H. rewrite Hp, Hm in H. destruct (decide _) as [Hd|Hd]; [|injection H as <- <-; split; [apply calmer_refl|]; intros ? ?; by destruct Hd].
  unfold both in H. destruct (local t (c :: p) FShutDown) as [[t1 e1]| |] eqn:E1; [|done..]. cbn in H.
  apply local_calm in E1 as (A1 & C1 & _ & S1); [|exact (te_node _ _ _ _ Ht)|done..]. apply local_calm in H as (A2 & C2 & S2 & _); [|done..].
  split; [by eapply calmer_trans|]. intros _ _. destruct (S2 pd) as (s & Hs & -> & _); [rewrite S1; [done|]; intros Hx; by eapply cons_ne|]. exists s. split; [done|]. apply t_eq.
Qed.
End tree.
