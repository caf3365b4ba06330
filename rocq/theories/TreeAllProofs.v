(** Proofs of C82. *)
From stdpp Require Import base list gmap.
From Verif Require Import Base ChildMgrModel ChildMgrSpec ChildMgrProofs ChildMgrTrace ChildMgrFacts FamilyModel FamilySpec FamilySteps FamilyFold FamilyInv FamilyProofs FamilyInit TreeModel TreeSpec TreeInv TreeNode TreeProofs.
From Verif Require Import FamilyStartSpec FamilyStartProofs TreeStartSpec TreeStartProofs FamilyEndProofs FamilyEndMain FamilyUpSpec FamilyUpProofs TreeUpSpec TreeUpProofs TreeTopSpec TreeTopProofs TreeAllSpec.
From Verif Require FamilyOnce FlowSpec TreeEndMain NamesProofs TreeSteps.
Open Scope N_scope.

Section node.
Context (hp : bool) (policy : spolicy) (sync : bool).
Notation fstep := (fstep hp policy sync).
(** Without synchronized start a child which has answered is started at once. *)
Lemma ok_start s o s' e c : sync = false -> c <> 0 -> fstep s o = Ok (s', e) -> EInitOk c ∈ e -> EStart c ∈ e.
Proof.
  intros Hsy Hc H Hin. apply step_shape in H as [fo ea co s1 s2 l P Hm Hs Hfi Hl|He So]; [|subst e; by apply elem_of_nil in Hin].
  apply manage_keeps in Hm as (_ & _ & _ & _ & Hst). pose proof (ok_ops _ _ _ _ _ _ _ _ Hst Hin) as ->. clear Hfi. cbn in Hst.
  destruct (bool_decide (c ∈ _)); [|injection Hst as _ <-; by apply elem_of_nil in Hin]. unfold on_init in Hst. cbn [negb andb] in Hst. set (x := set_initout _ _) in Hst.
  rewrite (proj2 (N.eqb_neq c 0) Hc), Hsy in Hst. change (cm_map x) with (cm_map (f_cm s1)) in Hst. destruct (cm_map (f_cm s1) !! c) as [i|].
  - cbn [negb] in Hst. injection Hst as _ <-. right. left.
  - exfalso. injection Hst as _ <-. cbn in Hin. destruct (negb _) in Hin; [|by apply elem_of_nil in Hin]. by apply TreeSteps.init_cont_in in Hin.
Qed.
Lemma ok_starts ops s ev c : sync = false -> c <> 0 -> guarded fstep orderly (finit hp) ops -> run fstep (finit hp) ops = Ok (s, ev) -> EInitOk c ∈ ev -> EStart c ∈ ev.
Proof.
  intros Hsy Hc Hg H. refine (run_inv_ev fstep orderly (fun s ev => EInitOk c ∈ ev -> EStart c ∈ ev) _ ops (finit hp) [] s ev _ Hg H); [|intros Hx; by apply elem_of_nil in Hx].
  intros s0 ev0 o s1 e1 IH _ Hs [Hx|Hx]%elem_of_app; apply elem_of_app; [left; auto|right]. by eapply ok_start.
Qed.
(** The start of a supervisor. *)
Lemma start_all s s' e : fstep s FStarted = Ok (s', e) -> cm_state (f_cm s) = AInitialized ->
  cm_state (f_cm s') = AOperational /\ (forall c, state_of s' c = state_of s c) /\ (sync = true -> forall c, c <> 0 -> is_Some (cm_map (f_cm s) !! c) -> EStart c ∈ e).
Proof.
  intros H Hst. cbn [FamilyModel.fstep] in H. unfold manage0 in H. apply FamilyEndProofs.manage_cm in H. cbn -[handle_start] in H. rewrite bool_decide_true in H by done. unfold handle_start in H.
  assert (Hb : forall b : bool, b = sync -> (let '(s1, e1) := if b then (set_map (f_cm s) (map_imap (fun a i => Some (if a =? 0 then i else i_flags i (ci_initialized i) true)) (cm_map (f_cm s))),
     omap (fun '(a, _) => if a =? 0 then None else Some (EStart a)) (map_to_list (cm_map (f_cm s)))) else (f_cm s, []) in Ok (set_state s1 AOperational, ESupStart :: e1)) = Ok (f_cm s', e) ->
     cm_state (f_cm s') = AOperational /\ (forall c, state_of s' c = state_of s c) /\ (sync = true -> forall c, c <> 0 -> is_Some (cm_map (f_cm s) !! c) -> EStart c ∈ e)); [|by eapply Hb].
  clear H. intros b Eb H. destruct b; injection H as E <-; unfold state_of; rewrite <-E; (split; [done|]; split; [done|]); [|congruence].
  intros _ c Hc [i Hi]. right. apply elem_of_list_omap. exists (c, i). split; [by apply elem_of_map_to_list|]. by rewrite (proj2 (N.eqb_neq c 0) Hc).
Qed.
Lemma start_child s c s' e : c <> 0 -> fstep s (FChildStart c) = Ok (s', e) -> state_of s c = Some AInitialized ->
  e = [] /\ cm_state (f_cm s') = cm_state (f_cm s) /\ cm_map (f_cm s') = cm_map (f_cm s) /\ state_of s' c = Some AOperational /\ forall d, d <> c -> state_of s' d = state_of s d.
Proof.
  intros Hc H Hs. cbn [FamilyModel.fstep] in H. unfold child_ready in H. unfold state_of in Hs |- *. destruct (cm_children (f_cm s) !! c) as [ch|] eqn:E; [|done]. cbn in Hs. injection Hs as Hs.
  rewrite bool_decide_true in H by done. injection H as <- <-. split; [done|]. split; [done|]. split; [done|]. cbn. rewrite lookup_insert. split; [done|]. intros d Hd. by rewrite lookup_insert_ne.
Qed.
End node.

Section all.
Context (pol : list N -> spolicy) (sync : list N -> bool).
Notation nstep := (nstep pol sync).
Notation local := (local pol sync).
Notation tstep := (tstep pol sync).
Notation nodeok := (nodeok pol sync).
Notation good := (tinv pol sync (fun _ => False)).
Notation rising := (rising pol sync).
Notation reaches := (reaches pol sync).
Notation rlevel := (rlevel []).
Notation goes := (goes pol sync []).

(** The root is past its initialization, and does not end. *)
Definition rooted (t : tstate) : Prop := exists rd, t !! [] = Some rd /\ (sup_state rd = AInitialized \/ sup_state rd = AOperational).
Lemma rooted_level t t' : rooted t -> rlevel t t' -> rooted t'.
Proof. intros (rd & H & Hs) L. destruct (L rd H) as (rd' & H' & Hl & _). exists rd'. split; [done|]. unfold sup_state in *. by rewrite Hl. Qed.

Lemma child0 t n nd c : good t -> t !! n = Some nd -> ECreated c ∈ n_ev nd -> c <> 0.
Proof. intros Hg Hn Hc. by destruct (h_next _ _ (ai_h _ _ _ (fi_all _ _ (no_fin _ _ _ _ (te_node _ _ _ _ Hg n nd Hn)))) c Hc). Qed.
Lemma lives t n nd c st : rising t -> rooted t -> t !! n = Some nd -> c <> 0 -> state_of (n_fam nd) c = Some st -> st <> AShutDown -> rank (cm_state (f_cm (n_fam nd))) < 5.
Proof.
  intros [Hg Hp] (rd & Hrd & Hrs) Hn Hc Hs Hne. destruct n as [|d p].
  - rewrite Hn in Hrd. injection Hrd as <-. unfold sup_state in Hrs. by destruct Hrs as [->| ->].
  - destruct (te_par _ _ _ _ Hg d p nd Hn) as (pd & Hpd & Hcr). pose proof (good_link _ _ _ _ _ _ _ Hg Hn Hpd) as L.
    pose proof (child0 t p pd d Hg Hpd Hcr) as Hd. destruct (Hp p pd Hpd) as [(_ & _ & _ & _ & Hsd) _]. specialize (Hsd d Hd). rewrite (lk_state _ _ _ _ _ _ L) in Hsd.
    unfold sup_state in Hsd. destruct (cm_state (f_cm (n_fam nd))) eqn:E; try done. exfalso. apply Hne.
    eapply (x_left _ _ _ (no_x _ _ _ _ (te_node _ _ _ _ Hg _ _ Hn))); [|exact Hc|exact Hs]. rewrite (lk_left _ _ _ _ _ _ L E). done.
Qed.
(** A child which initializes has its init request in hand. *)
Lemma holds t n nd c : rising t -> rooted t -> still t -> t !! n = Some nd -> c <> 0 -> state_of (n_fam nd) c = Some AInitializing -> busy (n_fam nd) c.
Proof.
  intros Hr Hro Hst Hn Hc Hs. pose proof (lives t n nd c _ Hr Hro Hn Hc Hs ltac:(done)) as Hrk. destruct Hr as [Hg Hp]. destruct (Hp n nd Hn) as [_ Hnf].
  destruct (te_node _ _ _ _ Hg n nd Hn) as [K1 K2 K3]. assert (Hk : known (n_fam nd) c) by (unfold known, state_of in *; by destruct (cm_children _ !! c)).
  pose proof (x_known _ _ _ K3 c Hk Hc) as Hcr. assert (Hna : EShutReq c ∉ n_ev nd).
  { intros Hx. apply (fam_asked _ _ _ _ _ _ c K1 K2 (Hst n nd Hn) Hcr) in Hx. destruct Hx as (st & H1 & [->| ->]); congruence. }
  destruct (fam_init _ _ _ _ _ _ c K1 K2 (Hst n nd Hn) Hcr Hna) as [_ [Hx|[Hx|[Hx|[Hx [Hy|[_ Hy]]]]]]].
  - exfalso. destruct (x_ok _ _ _ K3 c Hc) as (st & H1 & H2); [by right|]. rewrite Hs in H1. injection H1 as <-. by cbn in H2.
  - exfalso. apply Hnf. by left.
  - exfalso. apply Hnf. by right.
  - by split.
  - lia.
Qed.

(** ** Everybody can be initialized *)
Definition inits (nd : node) : Prop := exists c, c <> 0 /\ state_of (n_fam nd) c = Some AInitializing.
Definition noinits (nd : node) : Prop := forall c, c <> 0 -> state_of (n_fam nd) c <> Some AInitializing.
Lemma inits_or nd : inits nd \/ noinits nd.
Proof.
  destruct (decide (map_Forall (fun c ch => c = 0 \/ ch_state ch <> AInitializing) (cm_children (f_cm (n_fam nd))))) as [H|H].
  - right. intros c Hc Hs. unfold state_of in Hs. destruct (cm_children (f_cm (n_fam nd)) !! c) as [ch|] eqn:E; [|done]. cbn in Hs. injection Hs as Hs. by destruct (H c ch E).
  - left. apply map_not_Forall in H as (c & ch & E & Hn); [|intros; apply _]. exists c. split; [tauto|]. unfold state_of. rewrite E. cbn. f_equal. destruct (decide (ch_state ch = AInitializing)); [done|tauto].
Qed.
Lemma busy_goes t n nd c : rising t -> t !! n = Some nd -> c <> 0 -> t !! (c :: n) = None -> state_of (n_fam nd) c = Some AInitializing -> busy (n_fam nd) c -> goes t.
Proof.
  intros Hr Hn Hc0 Hno Hcs Hb. destruct (one_op pol sync [] t n nd (FChildInit c false) Hr Hn eq_refl) as (t1 & s & e & H1 & H2 & H3 & H4 & H5 & H6).
  { cbn. apply bool_decide_false. intros [m Hm]. congruence. }
  cbn in H4. eapply go_then; [exact H2|exact H3|lia|]. eapply go_move; [done|exact H6|]. cbn. eapply child_answers; [exact Hc0|exact Hcs| |exact H5]. by destruct Hb as [_ ?].
Qed.
Lemma init_goes t n nd : rising t -> rooted t -> still t -> t !! n = Some nd -> inits nd -> goes t.
Proof.
  intros Hr Hro Hst Hn (c & Hc & Hs). pose proof (holds t n nd c Hr Hro Hst Hn Hc Hs) as Hb. destruct (t !! (c :: n)) as [m|] eqn:Hm; [|by eapply busy_goes].
  pose proof Hr as [Hg Hp]. pose proof (good_link _ _ _ _ _ _ _ Hg Hm Hn) as L. pose proof (lk_state _ _ _ _ _ _ L) as Hls. rewrite Hs in Hls. injection Hls as Hls.
  assert (Hstart : starting t (c :: n) m).
  { split; [done|]. split; [done|]. destruct Hb as [_ (ch & Hch & Hci)]. rewrite <-(lk_init _ _ _ _ _ _ L ch Hch); [done|]. unfold state_of in Hs. rewrite Hch in Hs. cbn in Hs. congruence. }
  destruct (who pol sync t Hr Hst (c :: n) m Hstart) as (l & nd' & Hsn & Hw). destruct Hw as [Hi|(d & Hd0 & Hno & Hcs & Hbd)].
  - assert (E : exists d p, l ++ c :: n = d :: p) by (destruct l as [|d l]; [by exists c, n|by exists d, (l ++ c :: n)]). destruct E as (d & p & E). rewrite E in Hsn.
    destruct (te_par _ _ _ _ Hg d p nd') as (pd & Hpd & _); [by destruct Hsn|].
    destruct (inited pol sync [] t p d pd nd' Hr Hpd Hsn Hi) as (t1 & s & H1 & H2 & H3 & H4 & H5 & (o & e & H6) & _). eapply go_then; [exact H2|by apply H4|done|by eapply go_move].
  - destruct Hsn as (Hn' & _ & _). by eapply busy_goes.
Qed.
Lemma all_init k : forall t, (MW t < k)%nat -> rising t -> rooted t -> exists t', rising t' /\ reaches t t' /\ rooted t' /\ still t' /\ forall n nd, t' !! n = Some nd -> noinits nd.
Proof.
  induction k as [|k IH]; intros t Hk Hr Hro; [lia|].
  assert (Hgo : goes t -> exists t', rising t' /\ reaches t t' /\ rooted t' /\ still t' /\ forall n nd, t' !! n = Some nd -> noinits nd).
  { intros (t1 & H1 & H2 & H3 & H4). destruct (IH t1 ltac:(lia) H1 (rooted_level _ _ Hro H3)) as (t' & A & B & C). exists t'. split; [done|]. split; [by eapply reaches_trans|done]. }
  destruct (go_or_still pol sync [] t Hr) as [Hx|Hs]; [by apply Hgo|].
  destruct (TreeEndMain.any_or_all (fun _ nd => inits nd) (fun _ nd => noinits nd) t) as [(n & nd & Hn & Hi)|Ha].
  - intros n nd _. apply inits_or.
  - apply Hgo. by eapply init_goes.
  - exists t. split; [done|]. split; [apply reaches_refl|done].
Qed.

(** ** Nobody starts on the way *)
Definition back (t t' : tstate) : Prop := forall n nd', t' !! n = Some nd' -> sup_state nd' = AOperational -> exists nd, t !! n = Some nd /\ sup_state nd = AOperational.
Lemma back_refl t : back t t.
Proof. intros n nd H Hs. by exists nd. Qed.
Lemma back_trans t1 t2 t3 : back t1 t2 -> back t2 t3 -> back t1 t3.
Proof. intros A B n nd H Hs. destruct (B n nd H Hs) as (x & Hx & Hxs). by apply (A n x). Qed.
Lemma soft_back n nd o s e : nodeok n nd -> peaceful (n_fam nd) -> soft o -> o <> FStarted -> nstep n (n_fam nd) o = Ok (s, e) -> cm_state (f_cm s) = AOperational -> sup_state nd = AOperational.
Proof.
  intros Hk Hp Ho Hne H Hs. pose proof (node_reach _ _ _ _ Hk) as Hr.
  assert (Hl : lets o -> sup_state nd = AOperational) by (intros Hl; destruct (lets_step _ _ _ _ _ _ _ _ Hr Hp Hl H) as [_ [Hx _]]; unfold sup_state; congruence).
  destruct Ho as [Ho|[c ->]]; [|apply Hl; right; right; by exists c]. destruct o; try done; try (by apply Hl; left); try (by apply Hl; right; left).
  unfold TreeModel.nstep in H. cbn [FamilyModel.fstep] in H. unfold manage0 in H. destruct (_ && _); [|injection H as <- <-; done].
  destruct (manage _ _ _ false false (n_fam nd) (OState AInitialized)) as [[u eu]| |] eqn:E; [|done..]. cbn [rbind] in H. injection H as <- <-.
  assert (Hb : forall b : bool, f_cm (if b then u else push u [MInitResp 0 false]) = f_cm u) by (by intros []). rewrite Hb in Hs. apply FamilyEndProofs.manage_cm in E. cbn in E. unfold sup_state.
  destruct (sup_moves _ _ _) in E; cbn in E; injection E as E _; rewrite <-E in Hs; by cbn in Hs.
Qed.
Lemma local_back t n o t' e : TreeEndProofs.alln pol sync t -> tpeaceful t -> soft o -> o <> FStarted -> local t n o = Ok (t', e) -> back t t'.
Proof.
  intros Ha Hp Ho Hne H. unfold TreeModel.local in H. destruct (t !! n) as [nd|] eqn:En; [|injection H as <- <-; apply back_refl].
  destruct (nstep n (n_fam nd) o) as [[s e']| |] eqn:Es; [|done..]. cbn [rbind] in H. injection H as <- <-. intros m md Hm Hs.
  destruct (decide (m = n)) as [->|Hx]; [|rewrite t_ne in Hm by congruence; by exists md]. rewrite t_eq in Hm. injection Hm as <-. exists nd. split; [done|].
  eapply (soft_back n nd o s e'); [by apply Ha|by apply (Hp n)|done..].
Qed.
Lemma step_back t o t' e : TreeEndProofs.alln pol sync t -> tpeaceful t -> tcalm o -> tstep t o = Ok (t', e) -> back t t'.
Proof.
  intros Ha Hp [Ho Hq] H. assert (Hsame : Ok (t, []) = Ok (t', e) -> back t t') by (intros Hs; injection Hs as <- <-; apply back_refl).
  destruct o as [n o|n c|n c|n c|n c]; try done; cbn [TreeModel.tstep] in H.
  - destruct (t !! n) as [nd|] eqn:En; [|by apply Hsame]. destruct (_ || _); [by apply Hsame|].
    destruct (local t n o) as [[t1 e1]| |] eqn:El; [|done..]. cbn [rbind] in H. assert (Hne : o <> FStarted) by (by intros ->).
    pose proof (local_back _ _ _ _ _ Ha Hp (or_introl Ho) Hne El) as B1. apply (local_eased pol sync []) in El as (A1 & G1 & _); [|done|done|by left].
    destruct (match downcall (n_fam nd) o with Some (c, oc) => local t1 (c :: n) oc | None => Ok (t1, []) end) as [[t2 e2]| |] eqn:Ed; [|done..]. cbn [rbind] in H.
    rewrite (upcalls_good _ _ _ _ _ G1) in H. cbn in H. injection H as <- <-. eapply back_trans; [exact B1|].
    destruct (downcall (n_fam nd) o) as [[c oc]|] eqn:Edc; [|injection Ed as <- <-; apply back_refl]. apply downcall_init in Edc as ->; [|by apply (Hp n)].
    eapply local_back; [apply A1|apply A1| | |exact Ed]; [by left|done].
  - destruct (t !! (c :: n)) as [m|]; [|by apply Hsame]. destruct (ready _ _); [|by apply Hsame]. unfold both in H.
    destruct (local t (c :: n) FInitialized) as [[t1 e1]| |] eqn:El; [|done..]. cbn [rbind] in H.
    assert (B1 : back t t1) by (eapply local_back; [exact Ha|exact Hp| | |exact El]; [by left|done]). apply (local_eased pol sync []) in El as (A1 & _); [|done|done|by left].
    eapply back_trans; [exact B1|]. eapply local_back; [apply A1|apply A1| | |exact H]; [by left|done].
Qed.
Lemma reaches_back t t' : rising t -> reaches t t' -> back t t'.
Proof.
  intros Hr (ops & e & Hc & _ & H). revert t e Hr Hc H. induction ops as [|o ops IH]; intros t e Hr Hc H; [injection H as <- <-; apply back_refl|].
  apply Forall_cons in Hc as [Ho Hc]. destruct (rising_step pol sync [] t o Hr (proj1 Ho)) as (t1 & e1 & H1 & Hr1 & _). cbn [run] in H. rewrite H1 in H. cbn [rbind] in H.
  destruct (run tstep t1 ops) as [[t2 e2]| |] eqn:E; [|done..]. cbn in H. injection H as <- <-. eapply back_trans; [|by eapply IH]. destruct Hr as [Hg Hp]. eapply step_back; [exact (te_node _ _ _ _ Hg)|exact Hp|exact Ho|exact H1].
Qed.
Lemma back_unstarted t t' : back t t' -> unstarted sync t -> unstarted sync t'.
Proof. intros B U n nd Hn Hsy Hs. destruct (B n nd Hn Hs) as (x & Hx & Hxs). by apply (U n x). Qed.

(** ** Everybody can be started *)
Lemma told_init t n nd c : rising t -> rooted t -> still t -> (forall n nd, t !! n = Some nd -> noinits nd) -> unstarted sync t -> t !! n = Some nd -> c <> 0 -> state_of (n_fam nd) c = Some AInitialized ->
  EStart c ∈ n_ev nd \/ (sync n = true /\ sup_state nd = AInitialized /\ is_Some (cm_map (f_cm (n_fam nd)) !! c)).
Proof.
  intros Hr Hro Hst Hni Hun Hn Hc Hs. pose proof (lives t n nd c _ Hr Hro Hn Hc Hs ltac:(done)) as Hrk. destruct Hr as [Hg Hp]. destruct (Hp n nd Hn) as [_ Hnf].
  destruct (te_node _ _ _ _ Hg n nd Hn) as [K1 K2 K3]. assert (Hk : known (n_fam nd) c) by (unfold known, state_of in *; by destruct (cm_children _ !! c)).
  pose proof (x_known _ _ _ K3 c Hk Hc) as Hcr. assert (Hna : EShutReq c ∉ n_ev nd).
  { intros Hx. apply (fam_asked _ _ _ _ _ _ c K1 K2 (Hst n nd Hn) Hcr) in Hx. destruct Hx as (st & H1 & [->| ->]); congruence. }
  assert (Hok : EInitOk c ∈ n_ev nd).
  { destruct (fam_init _ _ _ _ _ _ c K1 K2 (Hst n nd Hn) Hcr Hna) as [_ [Hx|[Hx|[Hx|Hx]]]]; [done|exfalso; apply Hnf; by left|exfalso; apply Hnf; by right|]. exfalso. destruct Hx as [_ [(ch & Hch & Hq)|[_ Hy]]]; [|lia].
    unfold state_of in Hs. rewrite Hch in Hs. injection Hs as Hs. destruct (FamilyOnce.fam_once (hp n) (pol n) (sync n) c Hc _ _ _ ch K1 K2 Hch) as [Hz _]; [by left|congruence]. }
  destruct (sync n) eqn:Hsy; [right|left; by eapply (ok_starts (hp n) (pol n) (sync n))]. split; [done|]. split.
  - pose proof (fam_oall _ _ _ _ _ _ K1 K2) as (_ & _ & Hnew). unfold sup_state. destruct (cm_state (f_cm (n_fam nd))) eqn:E; try done; exfalso; [| |by cbn in Hrk..].
    + destruct n as [|d p]; [destruct Hro as (rd & Hrd & Hrs); rewrite Hn in Hrd; injection Hrd as <-; unfold sup_state in Hrs; destruct Hrs; congruence|].
      destruct (te_par _ _ _ _ Hg d p nd Hn) as (pd & Hpd & Hdr). pose proof (good_link _ _ _ _ _ _ _ Hg Hn Hpd) as L. apply (Hni p pd Hpd d (child0 t p pd d Hg Hpd Hdr)). rewrite (lk_state _ _ _ _ _ _ L). unfold sup_state. by rewrite E.
    + by apply (Hun n nd Hn Hsy).
  - destruct (cm_map (f_cm (n_fam nd)) !! c) as [i|] eqn:E; [done|exfalso]. assert (Hx : removed c (n_ev nd)) by (apply (fam_entry _ _ _ _ _ _ c K1 K2 Hcr); intros (i & Hi & _); congruence).
    apply (fam_removed _ _ _ _ _ _ c K1 K2 (Hst n nd Hn) Hcr) in Hx. congruence.
Qed.

Record ripe (t : tstate) : Prop := {
  rp_rising : rising t;
  rp_noinit : forall n nd, t !! n = Some nd -> noinits nd;
  rp_told : forall n nd c, t !! n = Some nd -> c <> 0 -> state_of (n_fam nd) c = Some AInitialized ->
    EStart c ∈ n_ev nd \/ (sync n = true /\ sup_state nd = AInitialized /\ is_Some (cm_map (f_cm (n_fam nd)) !! c)) }.
Definition undone (t : tstate) (n : list N) (c : N) : Prop := exists nd, t !! n = Some nd /\ c <> 0 /\ state_of (n_fam nd) c = Some AInitialized.
Definition shrinks (t t' : tstate) : Prop := forall n c, undone t' n c -> undone t n c.
Definition gets (t t' : tstate) : Prop := exists ops e, Forall tsmooth_all ops /\ guarded tstep tidy_timely t ops /\ run tstep t ops = Ok (t', e).
Lemma gets_refl t : gets t t.
Proof. exists [], []. split; [constructor|]. split; [constructor|done]. Qed.
Lemma gets_trans t1 t2 t3 : gets t1 t2 -> gets t2 t3 -> gets t1 t3.
Proof.
  intros (o1 & e1 & A1 & B1 & C1) (o2 & e2 & A2 & B2 & C2). exists (o1 ++ o2), (e1 ++ e2). split; [by apply Forall_app|]. split.
  - by eapply NamesProofs.guarded_app.
  - rewrite run_app, C1. cbn [rbind]. by rewrite C2.
Qed.
Lemma reaches_gets t t' : reaches t t' -> gets t t'.
Proof.
  intros (ops & e & A & B & C). exists ops, e. split; [eapply Forall_impl; [exact A|]; intros o [? _]; by left|]. split; [|done]. clear C. revert t B. induction ops as [|o ops IH]; intros t B; [done|].
  apply Forall_cons in A as [[Ho Hq] A]. destruct B as [B1 B2]. split.
  - split; [|destruct o as [n o| | | |]; try done; by destruct o]. split; [done|]. destruct o as [n o| | | |]; try done. by destruct o.
  - destruct (tstep t o) as [[t1 e1]| |]; [|done..]. by apply IH.
Qed.
(** A child which is no supervisor starts. *)
Lemma plain_starts t n nd c : ripe t -> t !! n = Some nd -> c <> 0 -> state_of (n_fam nd) c = Some AInitialized -> EStart c ∈ n_ev nd -> t !! (c :: n) = None ->
  exists t', ripe t' /\ gets t t' /\ shrinks t t' /\ ~ undone t' n c /\ rlevel t t'.
Proof.
  intros [[Hg Hp] Hni Hto] Hn Hc Hs He Hno. set (o := FChildStart c). assert (Hsoft : soft o) by (right; by exists c).
  assert (Hti : tidy t (TOp n o)) by (cbn; by rewrite Hn). destruct (step_good pol sync t (TOp n o) Hg Hti) as (t' & e & H & Hg').
  assert (Hsh : shared t n o = false) by (cbn; apply bool_decide_false; intros [x Hx]; congruence).
  pose proof H as H0. cbn [TreeModel.tstep] in H. rewrite Hn, Hsh in H. cbn [ready negb orb downcall] in H. destruct (local t n o) as [[t1 e1]| |] eqn:E1; [|done..]. cbn [rbind] in H.
  apply (local_eased pol sync []) in E1 as (A1 & G1 & S1 & N1 & L1); [|exact (te_node _ _ _ _ Hg)|done|done]. unfold o in H. cbn [ready negb downcall rbind] in H. rewrite (upcalls_good _ _ _ _ _ G1) in H. cbn in H. injection H as <- <-.
  destruct (S1 nd Hn) as (s & Hstep & ->). destruct (start_child _ _ _ _ _ _ _ Hc Hstep Hs) as (-> & F1 & F2 & F3 & F4). eexists. split; [|split; [|split; [|split]]].
  - split; [by split; [|apply A1]| |].
    + intros m md Hm d Hd. destruct (decide (m = n)) as [->|Hx]; [|rewrite t_ne in Hm by congruence; by apply (Hni m md)]. rewrite t_eq in Hm. injection Hm as <-. cbn.
      destruct (decide (d = c)) as [->|]; [congruence|]. rewrite F4 by done. by apply (Hni n nd Hn).
    + intros m md d Hm Hd Hds. destruct (decide (m = n)) as [->|Hx]; [|rewrite t_ne in Hm by congruence; by apply (Hto m md)]. rewrite t_eq in Hm. injection Hm as <-. unfold sup_state. cbn in Hds |- *. rewrite app_nil_r, F1, F2.
      destruct (decide (d = c)) as [->|]; [congruence|]. rewrite F4 in Hds by done. by apply (Hto n nd).
  - exists [TOp n o], ([] ++ []). split; [apply Forall_singleton; right; by exists n, c|]. cbn [guarded run]. rewrite H0. split; [|done]. split; [|done]. split; [|done]. split; [done|]. by exists nd.
  - intros m d (md & Hm & Hd & Hds). destruct (decide (m = n)) as [->|Hx]; [|rewrite t_ne in Hm by congruence; by exists md]. rewrite t_eq in Hm. injection Hm as <-. cbn in Hds. exists nd.
    destruct (decide (d = c)) as [->|]; [congruence|]. by rewrite F4 in Hds.
  - intros (md & Hm & Hd & Hds). rewrite t_eq in Hm. injection Hm as <-. cbn in Hds. congruence.
  - apply L1. intros _. right. right. by exists c.
Qed.
(** The root starts. *)
Lemma root_ripe t rd : ripe t -> t !! [] = Some rd -> sup_state rd = AInitialized -> exists t' rd', ripe t' /\ gets t t' /\ t' !! [] = Some rd' /\ sup_state rd' = AOperational.
Proof.
  intros [Hr Hni Hto] Hn Hs. destruct (rising_step pol sync [] t (TOp [] FStarted) Hr I) as (t' & e & H & Hr' & _). destruct Hr as [Hg Hp].
  pose proof H as H0. cbn [TreeModel.tstep] in H. rewrite Hn in H. cbn [shared hp ready negb orb downcall] in H. destruct (local t [] FStarted) as [[t1 e1]| |] eqn:E1; [|done..]. cbn [rbind] in H.
  apply (local_eased pol sync []) in E1 as (A1 & G1 & S1 & N1 & L1); [|exact (te_node _ _ _ _ Hg)|done|by left]. cbn [ready negb downcall rbind] in H. rewrite (upcalls_good _ _ _ _ _ G1) in H. cbn in H. injection H as <- <-.
  destruct (S1 rd Hn) as (s & Hstep & ->). destruct (start_all _ _ _ _ _ _ Hstep Hs) as (F1 & F2 & F3). exists (<[[] := grow rd s FStarted e1]> t), (grow rd s FStarted e1). split; [|split; [|split; [apply t_eq|exact F1]]].
  - split; [done| |].
    + intros m md Hm d Hd. destruct (decide (m = [])) as [->|Hx]; [|rewrite t_ne in Hm by congruence; by apply (Hni m md)]. rewrite t_eq in Hm. injection Hm as <-. cbn. rewrite F2. by apply (Hni [] rd Hn).
    + intros m md d Hm Hd Hds. destruct (decide (m = [])) as [->|Hx]; [|rewrite t_ne in Hm by congruence; by apply (Hto m md)]. rewrite t_eq in Hm. injection Hm as <-. cbn in Hds |- *. rewrite F2 in Hds. left. apply elem_of_app.
      destruct (Hto [] rd d Hn Hd Hds) as [?|(H1 & _ & H3)]; [by left|right; by apply F3].
  - exists [TOp [] FStarted], (e1 ++ []). split; [apply Forall_singleton; by left|]. cbn [guarded run]. rewrite H0. split; [|done]. split; [|done]. split; [split; [by apply smooth_tidy|done]|]. intros nd d Hnd Hd. by apply (Hni [] nd Hnd).
Qed.
(** A child supervisor starts. *)
Lemma sup_starts t n nd c m : ripe t -> t !! n = Some nd -> c <> 0 -> state_of (n_fam nd) c = Some AInitialized -> EStart c ∈ n_ev nd -> t !! (c :: n) = Some m ->
  exists t', ripe t' /\ gets t t' /\ shrinks t t' /\ ~ undone t' n c /\ rlevel t t'.
Proof.
  intros [Hr Hni Hto] Hn Hc Hs He Hm. destruct (rising_step pol sync [] t (TStarted n c) Hr I) as (t' & e & H & Hr' & _). destruct Hr as [Hg Hp].
  pose proof (good_link _ _ _ _ _ _ _ Hg Hm Hn) as L. pose proof (lk_state _ _ _ _ _ _ L) as Hms. rewrite Hs in Hms. injection Hms as Hms. symmetry in Hms.
  pose proof H as H0. cbn [TreeModel.tstep] in H. rewrite Hm in H. unfold both in H. destruct (local t (c :: n) FStarted) as [[t1 e1]| |] eqn:E1; [|done..]. cbn [rbind] in H.
  apply (local_eased pol sync []) in E1 as (A1 & _ & S1 & N1 & L1); [|exact (te_node _ _ _ _ Hg)|done|by left]. apply (local_eased pol sync []) in H as (A2 & _ & S2 & N2 & L2); [|apply A1|apply A1|right; by exists c].
  destruct (S1 m Hm) as (s & Hstep & E). subst t1. destruct (S2 nd) as (s2 & Hstep2 & E); [rewrite N1; [done|intros Hx; by eapply cons_ne]|]. subst t'.
  destruct (start_all _ _ _ _ _ _ Hstep Hms) as (F1 & F2 & F3). destruct (start_child _ _ _ _ _ _ _ Hc Hstep2 Hs) as (-> & P1 & P2 & P3 & P4).
  assert (Hcn : c :: n <> n) by (intros Hx; by eapply cons_ne).
  assert (Hcase : forall x xd, (<[n := grow nd s2 (FChildStart c) []]> (<[c :: n := grow m s FStarted e1]> t) : tstate) !! x = Some xd ->
    (x = n /\ xd = grow nd s2 (FChildStart c) []) \/ (x = c :: n /\ xd = grow m s FStarted e1) \/ (t !! x = Some xd /\ x <> n /\ x <> c :: n)).
  { intros x xd Hx. destruct (decide (x = n)) as [->|]; [rewrite t_eq in Hx; injection Hx as <-; by left|]. rewrite t_ne in Hx by congruence. right.
    destruct (decide (x = c :: n)) as [->|]; [rewrite t_eq in Hx; injection Hx as <-; by left|]. rewrite t_ne in Hx by congruence. by right. }
  eexists. split; [|split; [|split; [|split]]].
  - split; [done| |].
    + intros x xd Hx d Hd. destruct (Hcase x xd Hx) as [[-> ->]|[[-> ->]|(Hx' & _)]]; [| |by apply (Hni x xd)]; cbn.
      * destruct (decide (d = c)) as [->|]; [congruence|]. rewrite P4 by done. by apply (Hni n nd Hn).
      * rewrite F2. by apply (Hni _ m Hm).
    + intros x xd d Hx Hd Hds. destruct (Hcase x xd Hx) as [[-> ->]|[[-> ->]|(Hx' & _)]]; [| |by apply (Hto x xd)]; unfold sup_state; cbn in Hds |- *.
      * rewrite app_nil_r, P1, P2. destruct (decide (d = c)) as [->|]; [congruence|]. rewrite P4 in Hds by done. by apply (Hto n nd).
      * rewrite F2 in Hds. left. apply elem_of_app. destruct (Hto _ m d Hm Hd Hds) as [?|(H1 & _ & H3)]; [by left|right; by apply F3].
  - exists [TStarted n c], ([] ++ []). split; [apply Forall_singleton; by left|]. cbn [guarded run]. rewrite H0. split; [|done]. split; [|done]. split; [split; [done|by exists nd]|]. intros md d Hmd Hd. by apply (Hni (c :: n) md Hmd).
  - intros x d (xd & Hx & Hd & Hds). destruct (Hcase x xd Hx) as [[-> ->]|[[-> ->]|(Hx' & _)]]; cbn in Hds.
    + exists nd. destruct (decide (d = c)) as [->|]; [congruence|]. by rewrite P4 in Hds.
    + exists m. by rewrite F2 in Hds.
    + by exists xd.
  - intros (md & Hx & Hd & Hds). rewrite t_eq in Hx. injection Hx as <-. cbn in Hds. congruence.
  - eapply rlevel_trans; [apply L1; done|]. apply L2. intros _. right. right. by exists c.
Qed.
Definition works (t : tstate) : Prop := exists rd, t !! [] = Some rd /\ sup_state rd = AOperational.
Lemma works_level t t' : works t -> rlevel t t' -> works t'.
Proof. intros (rd & H & Hs) L. destruct (L rd H) as (rd' & H' & Hl & _). exists rd'. split; [done|]. unfold sup_state in *. by rewrite Hl. Qed.
Definition pair_up (t : tstate) (n : list N) (c : N) : Prop := exists t', ripe t' /\ works t' /\ gets t t' /\ shrinks t t' /\ ~ undone t' n c.
Lemma undone_dec t n c : undone t n c \/ ~ undone t n c.
Proof.
  unfold undone. destruct (t !! n) as [nd|] eqn:E; [|right; intros (x & Hx & _); congruence]. destruct (decide (c <> 0 /\ state_of (n_fam nd) c = Some AInitialized)) as [[H1 H2]|Hn]; [left; by exists nd|].
  right. intros (x & Hx & H1 & H2). apply Hn. injection Hx as <-. done.
Qed.
Lemma told_up t n nd c : ripe t -> works t -> t !! n = Some nd -> c <> 0 -> state_of (n_fam nd) c = Some AInitialized -> EStart c ∈ n_ev nd -> pair_up t n c.
Proof.
  intros Hr Hw Hn Hc Hs He. assert (H : exists t', ripe t' /\ gets t t' /\ shrinks t t' /\ ~ undone t' n c /\ rlevel t t').
  { destruct (t !! (c :: n)) as [m|] eqn:Hm; [by eapply sup_starts|by eapply plain_starts]. }
  destruct H as (t' & H1 & H2 & H3 & H4 & H5). exists t'. split_and!; try done. by eapply works_level.
Qed.
Lemma one_up n : forall c t, ripe t -> works t -> pair_up t n c.
Proof.
  induction n as [|d p IH]; intros c t Hr Hw.
  - destruct (undone_dec t [] c) as [Hu|Hu]; [|exists t; split; [done|]; split; [done|]; split; [apply gets_refl|]; split; [by intros ? ?|done]]. destruct Hu as (nd & Hn & Hc & Hs). destruct (rp_told _ Hr [] nd c Hn Hc Hs) as [He|(_ & Hx & _)]; [by eapply told_up|]. destruct Hw as (rd & Hrd & Hrs). congruence.
  - destruct (IH d t Hr Hw) as (t1 & A1 & A2 & A3 & A4 & A5). destruct (undone_dec t1 (d :: p) c) as [Hu1|Hu1]; [|by exists t1]. destruct Hu1 as (nd & Hn & Hc & Hs).
    destruct (rp_told _ A1 (d :: p) nd c Hn Hc Hs) as [He|(_ & Hx & _)].
    + destruct (told_up t1 (d :: p) nd c A1 A2 Hn Hc Hs He) as (t2 & B1 & B2 & B3 & B4 & B5). exists t2. split; [done|]. split; [done|]. split; [by eapply gets_trans|]. split; [|done]. intros x y Hxy. by apply A4, B4.
    + exfalso. apply A5. destruct (rp_rising _ A1) as [Hg _]. destruct (te_par _ _ _ _ Hg d p nd Hn) as (pd & Hpd & Hdr). exists pd. split; [done|]. split; [by eapply child0|].
      rewrite (lk_state _ _ _ _ _ _ (good_link _ _ _ _ _ _ _ Hg Hn Hpd)). by rewrite Hx.
Qed.
Lemma many_up (l : list (list N * N)) : forall t, ripe t -> works t -> (forall n c, undone t n c -> (n, c) ∈ l) -> exists t', ripe t' /\ works t' /\ gets t t' /\ forall n c, ~ undone t' n c.
Proof.
  induction l as [|[n c] l IH]; intros t Hr Hw Hl; [exists t; split; [done|]; split; [done|]; split; [apply gets_refl|]; intros n c Hx; by apply Hl, elem_of_nil in Hx|].
  destruct (one_up n c t Hr Hw) as (t1 & A1 & A2 & A3 & A4 & A5). destruct (IH t1 A1 A2) as (t2 & B1 & B2 & B3 & B4).
  - intros m d Hu. assert (Hx := Hl m d (A4 m d Hu)). apply elem_of_cons in Hx as [[= -> ->]|Hx]; [by apply A5 in Hu|done].
  - exists t2. split; [done|]. split; [done|]. split; [by eapply gets_trans|done].
Qed.
Lemma undone_list t : exists l : list (list N * N), forall n c, undone t n c -> (n, c) ∈ l.
Proof.
  exists (map_to_list t ≫= fun '(n, nd) => (fun '(c, _) => (n, c)) <$> map_to_list (cm_children (f_cm (n_fam nd)))). intros n c (nd & Hn & _ & Hs).
  apply elem_of_list_bind. exists (n, nd). split; [|by apply elem_of_map_to_list]. unfold state_of in Hs. destruct (cm_children _ !! c) as [ch|] eqn:E; [|done].
  apply elem_of_list_fmap. exists (c, ch). split; [done|]. by apply elem_of_map_to_list.
Qed.
Lemma ripe_up t : ripe t -> works t -> (forall n c, ~ undone t n c) -> all_up t.
Proof.
  intros [[Hg Hp] Hni _] Hw Hu. split; [done|]. intros n nd c st Hn Hc Hs. destruct (te_node _ _ _ _ Hg n nd Hn) as [K1 K2 _]. pose proof (fam_oall _ _ _ _ _ _ K1 K2) as (_ & Ho & _).
  destruct st; auto; exfalso; [by apply (o_new _ _ Ho c Hc)|by apply (Hni n nd Hn c Hc)|apply (Hu n c); by exists nd|]. destruct (Hp n nd Hn) as [(_ & _ & _ & _ & Hx) _]. by apply (Hx c Hc).
Qed.
Lemma root_inited t rd : rising t -> t !! [] = Some rd -> coming (sup_state rd) -> exists t', rising t' /\ reaches t t' /\ rooted t'.
Proof.
  intros Hr Hrd [Hs|Hs]; [|exists t; split; [done|]; split; [apply reaches_refl|by exists rd]].
  destruct (ready_sup pol sync [] t rd Hr Hrd Hs (or_introl eq_refl)) as (t1 & rd1 & A1 & A2 & A3 & A4 & _). exists t1. split; [done|]. split; [done|]. exists rd1. split; [done|by left].
Qed.
Lemma rises t rd : rising t -> t !! [] = Some rd -> coming (sup_state rd) -> unstarted sync t -> exists t', gets t t' /\ all_up t' /\ tpeaceful t'.
Proof.
  intros Hr Hrd Hs Hun. destruct (root_inited t rd Hr Hrd Hs) as (t1 & A1 & A2 & A3).
  destruct (all_init (Datatypes.S (MW t1)) t1 ltac:(lia) A1 A3) as (t2 & B1 & B2 & B3 & B4 & B5).
  assert (U2 : unstarted sync t2). { eapply back_unstarted; [|exact Hun]. eapply back_trans; [by apply reaches_back|by apply reaches_back]. }
  assert (R2 : ripe t2). { split; [done|done|]. intros n nd c Hn Hc Hcs. by eapply told_init. }
  destruct B3 as (rd2 & C1 & C2). assert (H : exists t3, ripe t3 /\ gets t2 t3 /\ works t3).
  { destruct C2 as [C2|C2]; [|exists t2; split; [done|]; split; [apply gets_refl|by exists rd2]]. destruct (root_ripe t2 rd2 R2 C1 C2) as (t3 & rd3 & D1 & D2 & D3 & D4). exists t3. split; [done|]. split; [done|by exists rd3]. }
  destruct H as (t3 & D1 & D2 & D3). destruct (undone_list t3) as [l Hl]. destruct (many_up l t3 D1 D3 Hl) as (t4 & E1 & E2 & E3 & E4). exists t4. split; [|split; [by apply ripe_up|apply E1]].
  eapply gets_trans; [by apply reaches_gets|]. eapply gets_trans; [by apply reaches_gets|]. by eapply gets_trans.
Qed.
End all.
