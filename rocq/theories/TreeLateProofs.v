(** Proofs of C82: children which come after the start of a supervisor with synchronized start. *)
From stdpp Require Import base list gmap.
From Verif Require Import Base ChildMgrModel ChildMgrSpec ChildMgrProofs ChildMgrTrace ChildMgrFacts FamilyModel FamilySpec FamilySteps FamilyFold FamilyInv FamilyProofs FamilyInit TreeModel TreeSpec TreeInv TreeSteps TreeNode TreeProofs.
From Verif Require Import FamilyStartSpec FamilyStartProofs TreeStartSpec TreeStartProofs FamilyUpSpec FamilyUpProofs TreeUpSpec TreeUpProofs TreeTopSpec TreeTopProofs TreeAllSpec TreeAllProofs.
From Verif Require NamesProofs.
Open Scope N_scope.

Section node.
Context (hp : bool) (policy : spolicy) (sync : bool).
Notation step := (cstep hp policy sync).
Notation fstep := (fstep hp policy sync).
Lemma past_step s o s' e : step s o = Ok (s', e) -> past (cm_state s) -> past (cm_state s').
Proof.
  intros H Hn. assert (Hsame : cm_state s' = cm_state s -> past (cm_state s')) by (intros ->; done).
  destruct o as [|cfg|x ok|x|x fl|x|x subs ask|x ask| | | |id|d| | |st|x ch|m ask].
  all: try (apply step_own in H; [|by right|done]; destruct H as (Hx & _); by apply Hsame).
  - cbn in H. unfold on_shutdown_trigger in H. destruct (cm_map s !! x) as [i|]; [|done]. unfold request_shutdown in H.
    destruct (ci_shut i); [|injection H as <- <-; by apply Hsame..]. destruct (ci_actor i) as [y|]; [|done]. destruct (cancel_own s y) as [K1 K2].
    destruct (y =? 0); [|injection H as <- <-; apply Hsame; exact K1]. destruct hp; [injection H as <- <-; apply Hsame; exact K1|].
    destruct (bool_decide _); [injection H as <- <-; apply Hsame; exact K1|].
    destruct (request_shutdown_all _) as [s3 e3] eqn:Hall. injection H as <- <-. destruct (all_own (set_state (put_info (cancel_init s y) x (i_shut i SConfirmed)) AShuttingDown)) as (K & _).
    rewrite Hall in K. cbn in K. cbn. rewrite K. done.
  - cbn in H. destruct (bool_decide _); [|injection H as <- <-; by apply Hsame]. destruct (handle_start _ _). injection H as <- <-. done.
  - cbn in H. injection H as <- <-. by destruct (bool_decide _); apply Hsame.
  - cbn in H. destruct (sup_moves hp (cm_state s) st) eqn:Hm; injection H as <- <-; [|by apply Hsame]. cbn. destruct (cm_state s), st; try done.
  - cbn in H. destruct (cm_children s !! x); [|injection H as <- <-; by apply Hsame]. destruct (decide _); injection H as <- <-; by apply Hsame.
Qed.
Lemma late_step s o s' e c : sync = true -> c <> 0 -> fstep s o = Ok (s', e) -> past (cm_state (f_cm s)) -> past (cm_state (f_cm s')) /\ EStart c ∉ e.
Proof.
  intros Hsy Hc H Hn. apply step_shape in H as [fo ea co s1 s2 l P Hm -> _ _| -> So].
  - destruct (manage_keeps hp policy sync fo ea s1 co s2 e Hm) as (_ & _ & _ & _ & Hst). assert (E : cm_state (f_cm s1) = cm_state (f_cm s)) by (by destruct (pr_cm _ _ _ P) as [->|[x ->]]).
    split; [eapply past_step; [exact Hst|by rewrite E]|]. intros Hi. destruct (start_step _ _ _ _ _ _ _ _ Hst Hi) as [(_ & _ & Hs & _)|(_ & [?|?])]; [|done|congruence].
    rewrite E in Hs. by rewrite Hs in Hn.
  - destruct (so_cm _ _ So) as [M ->]. split; [done|]. intros Hi. by apply elem_of_nil in Hi.
Qed.
End node.

Section tree.
Context (pol : list N -> spolicy) (sync : list N -> bool).
Notation tstep := (tstep pol sync).
Notation local := (local pol sync).
(** What every local step and every attachment keeps is kept. *)
Lemma step_keeps (P : tstate -> Prop) : (forall t n o t' e, P t -> local t n o = Ok (t', e) -> P t') ->
  (forall t k, P t -> t !! k = None -> P (<[k := Node (finit true) [] []]> t)) -> forall t o t' e, P t -> tstep t o = Ok (t', e) -> P t'.
Proof.
  intros Hl Ha t o t' e Hp H. assert (Hsame : Ok (t, []) = Ok (t', e) -> P t') by (intros Hs; by injection Hs as <- <-).
  assert (Hb : forall n c oc on, both pol sync t n c oc on = Ok (t', e) -> P t').
  { intros n c oc on Hx. unfold both in Hx. destruct (local t (c :: n) oc) as [[t1 e1]| |] eqn:El; [|done..]. cbn [rbind] in Hx. eapply Hl; [|exact Hx]. by eapply Hl. }
  assert (Hu : forall n l t t', P t -> upcalls pol sync t n l = Ok t' -> P t').
  { intros n l. induction l as [|x l IH]; intros t0 t0' Hj Hx; cbn in Hx; [by injection Hx as <-|].
    destruct (upcall pol sync t0 n x) as [[t1 e1]| |] eqn:Hu; [|done..]. cbn in Hx. apply (IH t1 t0'); [|done]. unfold upcall in Hu.
    assert (Hs : Ok (t0, []) = Ok (t1, e1) -> P t1) by (intros Hs; by injection Hs as <- <-).
    destruct n as [|c p]; [by apply Hs|]. destruct x; try (by apply Hs); (eapply Hl; [exact Hj|exact Hu]). }
  destruct o as [n o|n c|n c|n c|n c]; cbn [TreeModel.tstep] in H.
  - destruct (t !! n) as [nd|]; [|by apply Hsame]. destruct (_ || _); [by apply Hsame|].
    destruct (local t n o) as [[t1 e1]| |] eqn:El; [|done..]. cbn [rbind] in H. apply Hl in El; [|done].
    destruct (match downcall (n_fam nd) o with Some (c, oc) => local t1 (c :: n) oc | None => Ok (t1, []) end) as [[t2 e2]| |] eqn:Ed; [|done..]. cbn [rbind] in H.
    assert (H2 : P t2) by (destruct (downcall (n_fam nd) o) as [[c oc]|]; [by eapply Hl|by injection Ed as <- <-]).
    destruct (upcalls pol sync t2 n e1) as [t3| |] eqn:E3; [|done..]. cbn in H. injection H as <- <-. by eapply Hu.
  - destruct (t !! n) as [nd|]; [|by apply Hsame]. destruct (t !! (c :: n)) eqn:En; [by apply Hsame|]. destruct (child_ready _ _ _) as [ch|]; [|by apply Hsame]. destruct (_ || _); [by apply Hsame|].
    injection H as <- <-. by apply Ha.
  - repeat (match type of H with context [match ?x with _ => _ end] => destruct x end; try (by apply Hsame)); by eapply Hb.
  - repeat (match type of H with context [match ?x with _ => _ end] => destruct x end; try (by apply Hsame)); by eapply Hb.
  - repeat (match type of H with context [match ?x with _ => _ end] => destruct x end; try (by apply Hsame)); by eapply Hb.
Qed.
Definition late_at (n : list N) (c : N) (t : tstate) : Prop := exists nd, t !! n = Some nd /\ past (sup_state nd) /\ EStart c ∉ n_ev nd.
Lemma late_keeps n c t o t' e : sync n = true -> c <> 0 -> late_at n c t -> tstep t o = Ok (t', e) -> late_at n c t'.
Proof.
  intros Hsy Hc. apply step_keeps.
  - intros t0 m o0 t0' e0 (nd & Hn & Hp & Hi) H. unfold TreeModel.local in H. destruct (t0 !! m) as [md|] eqn:Em; [|injection H as <- <-; by exists nd].
    destruct (nstep pol sync m (n_fam md) o0) as [[s e']| |] eqn:Es; [|done..]. cbn [rbind] in H. injection H as <- <-. destruct (decide (m = n)) as [->|Hne].
    + rewrite Hn in Em. injection Em as <-. eexists. split; [apply t_eq|]. unfold nstep in Es. destruct (late_step _ _ _ _ _ _ _ c Hsy Hc Es Hp) as [A B]. split; [exact A|]. cbn. by intros [?|?]%elem_of_app.
    + exists nd. rewrite t_ne by congruence. done.
  - intros t0 k (nd & Hn & Hp & Hi) Hk. exists nd. rewrite t_ne by congruence. done.
Qed.
Lemma late_run n c ops t t' e : sync n = true -> c <> 0 -> late_at n c t -> run tstep t ops = Ok (t', e) -> late_at n c t'.
Proof.
  intros Hsy Hc. revert t e. induction ops as [|o ops IH]; intros t e Hl H; cbn in H; [by injection H as <- <-|].
  destruct (tstep t o) as [[t1 e1]| |] eqn:Es; [|done..]. cbn in H. destruct (run tstep t1 ops) as [[t2 e2]| |] eqn:Er; [|done..]. cbn in H. injection H as <- <-.
  eapply IH; [|exact Er]. by eapply late_keeps.
Qed.
(** After its start a synchronized supervisor sends no trigger any more. *)
Definition since (n : list N) (c : N) (l : list cevent) (t : tstate) : Prop := exists nd e, t !! n = Some nd /\ past (sup_state nd) /\ n_ev nd = l ++ e /\ EStart c ∉ e.
Lemma since_keeps n c l t o t' e : sync n = true -> c <> 0 -> since n c l t -> tstep t o = Ok (t', e) -> since n c l t'.
Proof.
  intros Hsy Hc. apply step_keeps.
  - intros t0 m o0 t0' e0 (nd & l0 & Hn & Hp & Hl & Hi) H. unfold TreeModel.local in H. destruct (t0 !! m) as [md|] eqn:Em; [|injection H as <- <-; by exists nd, l0].
    destruct (nstep pol sync m (n_fam md) o0) as [[s e']| |] eqn:Es; [|done..]. cbn [rbind] in H. injection H as <- <-. destruct (decide (m = n)) as [->|Hne].
    + rewrite Hn in Em. injection Em as <-. eexists _, (l0 ++ e'). split; [apply t_eq|]. unfold nstep in Es. destruct (late_step _ _ _ _ _ _ _ c Hsy Hc Es Hp) as [A B]. split; [exact A|]. cbn.
      split; [by rewrite Hl, <-app_assoc|]. by intros [?|?]%elem_of_app.
    + exists nd, l0. rewrite t_ne by congruence. done.
  - intros t0 k (nd & l0 & Hn & Hp & Hi) Hk. exists nd, l0. rewrite t_ne by congruence. done.
Qed.
Lemma tree_since ops t n nd c t' e : sync n = true -> t !! n = Some nd -> past (sup_state nd) -> c <> 0 -> run tstep t ops = Ok (t', e) ->
  exists nd' l, t' !! n = Some nd' /\ n_ev nd' = n_ev nd ++ l /\ EStart c ∉ l.
Proof.
  intros Hsy Hn Hp Hc H. assert (Hs : since n c (n_ev nd) t). { exists nd, []. split; [done|]. split; [done|]. split; [by rewrite app_nil_r|]. intros Hx. by apply elem_of_nil in Hx. }
  assert (Hs' : since n c (n_ev nd) t'); [|destruct Hs' as (nd' & l & ? & _ & ? & ?); by exists nd', l]. set (l := n_ev nd) in *. clearbody l. clear Hn Hp. revert t e Hs H.
  induction ops as [|o ops IH]; intros t e Hl H; cbn in H; [by injection H as <- <-|].
  destruct (tstep t o) as [[t1 e1]| |] eqn:Es; [|done..]. cbn in H. destruct (run tstep t1 ops) as [[t2 e2]| |] eqn:Er; [|done..]. cbn in H. injection H as <- <-.
  eapply IH; [|exact Er]. by eapply since_keeps.
Qed.
(** A child which has not been started when its supervisor has, is never started. *)
Lemma tree_late ops t ev n nd c ops' t' e nd' : guarded tstep tidy_told tinit ops -> run tstep tinit ops = Ok (t, ev) -> sync n = true -> t !! n = Some nd -> past (sup_state nd) -> c <> 0 -> EStart c ∉ n_ev nd ->
  guarded tstep tidy_told t ops' -> run tstep t ops' = Ok (t', e) -> t' !! n = Some nd' -> EStart c ∉ n_ev nd' /\ state_of (n_fam nd') c <> Some AOperational.
Proof.
  intros Hg H Hsy Hn Hp Hc Hi Hg' H' Hn'. destruct (late_run n c ops' t t' e Hsy Hc ltac:(by exists nd) H') as (x & Hx & _ & Hx'). rewrite Hn' in Hx. injection Hx as <-. split; [done|].
  intros Ho. apply Hx'. eapply (tree_told pol sync (ops ++ ops') t'); [|by rewrite run_app, H; cbn; rewrite H'|done|done|done]. eapply NamesProofs.guarded_app; [done|exact H|done].
Qed.
Lemma tree_all ops t ev rd : guarded tstep tidy tinit ops -> run tstep tinit ops = Ok (t, ev) -> tpeaceful t -> t !! [] = Some rd -> coming (sup_state rd) -> unstarted sync t ->
  exists ops' t' e, Forall tsmooth_all ops' /\ guarded tstep tidy_timely t ops' /\ run tstep t ops' = Ok (t', e) /\ all_up t' /\ tpeaceful t'.
Proof.
  intros Hg H Hp Hrd Hs Hun. destruct (rises pol sync t rd) as (t' & (ops' & e & A & B & C) & D & E); [by eapply tree_rising|done|done|done|]. by exists ops', t', e.
Qed.
Lemma tree_all_init ops t ev rd : guarded tstep tidy tinit ops -> run tstep tinit ops = Ok (t, ev) -> tpeaceful t -> t !! [] = Some rd -> coming (sup_state rd) ->
  exists ops' t' e, Forall tsmooth ops' /\ guarded tstep tidy t ops' /\ run tstep t ops' = Ok (t', e) /\ tpeaceful t' /\ still t' /\ forall n nd c, t' !! n = Some nd -> c <> 0 -> state_of (n_fam nd) c <> Some AInitializing.
Proof.
  intros Hg H Hp Hrd Hs. assert (Hr : rising pol sync t) by (by eapply tree_rising). destruct (root_inited pol sync t rd Hr Hrd Hs) as (t1 & A1 & A2 & A3).
  destruct (all_init pol sync (Datatypes.S (MW t1)) t1 ltac:(lia) A1 A3) as (t2 & B1 & B2 & B3 & B4 & B5).
  destruct (reaches_trans _ _ _ _ _ A2 B2) as (ops' & e & C1 & C2 & C3). exists ops', t2, e. split; [eapply Forall_impl; [exact C1|]; by intros o [? _]|]. split; [done|]. split; [done|]. split; [apply B1|]. split; [done|].
  intros n nd c Hn. by apply (B5 n nd Hn).
Qed.
Lemma tree_all_free ops t ev rd : (forall n, sync n = false) -> guarded tstep tidy tinit ops -> run tstep tinit ops = Ok (t, ev) -> tpeaceful t -> t !! [] = Some rd -> coming (sup_state rd) ->
  exists ops' t' e, Forall tsmooth_all ops' /\ guarded tstep tidy_timely t ops' /\ run tstep t ops' = Ok (t', e) /\ all_up t' /\ tpeaceful t'.
Proof. intros Hsy Hg H Hp Hrd Hs. eapply tree_all; [exact Hg|exact H|done|exact Hrd|done|]. intros n nd _ Hx. by rewrite Hsy in Hx. Qed.
End tree.
