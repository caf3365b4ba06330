(** Proofs of C56. *)
From stdpp Require Import base list gmap.
From Verif Require Import Base ChildMgrModel ChildMgrSpec ChildMgrProofs ChildMgrTrace ChildMgrFacts FamilyModel FamilySpec FamilySteps FamilyFold FamilyInv FamilyChild FamilyProofs FamilyInit TreeModel TreeSpec TreeSteps TreeInv TreeNode.
Open Scope N_scope.

Section proofs.
Context (pol : list N -> spolicy) (sync : list N -> bool).
Notation nstep := (nstep pol sync).
Notation local := (local pol sync).
Notation tstep := (tstep pol sync).

Record nodeok (n : list N) (nd : node) : Prop := {
  no_guard : guarded (nstep n) orderly (finit (hp n)) (n_ops nd);
  no_run : run (nstep n) (finit (hp n)) (n_ops nd) = Ok (n_fam nd, n_ev nd);
  no_x : xinv (hp n) (n_fam nd) (n_ev nd) }.
Definition grow (nd : node) (s : fstate) (o : fop) (e : list cevent) : node := Node s (n_ops nd ++ [o]) (n_ev nd ++ e).

Lemma guarded_more n s o1 o2 s1 e1 : guarded (nstep n) orderly s o1 -> run (nstep n) s o1 = Ok (s1, e1) -> guarded (nstep n) orderly s1 o2 -> guarded (nstep n) orderly s (o1 ++ o2).
Proof.
  revert s e1. induction o1 as [|o o1 IH]; intros s e1 Hg Hr H2; cbn in *; [by inversion Hr; subst|]. destruct Hg as [Hok Hg]. split; [done|].
  destruct (nstep n s o) as [[s' e']| |]; cbn in *; [|done..]. destruct (run (nstep n) s' o1) as [[s2 e2]| |] eqn:Er; cbn in Hr; [|done..]. inversion Hr; subst. by eapply IH.
Qed.
Lemma no_fin n nd : nodeok n nd -> finv (n_fam nd) (n_ev nd).
Proof. intros [Hg Hr _]. by eapply fam_reach. Qed.
Lemma node_init n : nodeok n (Node (finit (hp n)) [] []).
Proof. split; [done|done|apply xinv_init]. Qed.
Lemma node_step n nd o : nodeok n nd -> orderly (n_fam nd) o -> timely (n_fam nd) o ->
  exists s e, nstep n (n_fam nd) o = Ok (s, e) /\ nodeok n (grow nd s o e).
Proof.
  intros Hn Ho Ht. pose proof Hn as [Hg Hr Hx]. pose proof (no_fin _ _ Hn) as Hf.
  destruct (step_fin (hp n) (pol n) (sync n) (n_fam nd) (n_ev nd) o Hf Ho) as (s & e & H & Hf'). exists s, e. split; [exact H|]. split; cbn.
  - eapply guarded_more; [exact Hg|exact Hr|]. cbn. split; [done|]. unfold TreeModel.nstep. by rewrite H.
  - rewrite run_app, Hr. cbn. unfold TreeModel.nstep. rewrite H. cbn. by rewrite app_nil_r.
  - eapply step_x; [exact Hf|exact Hf'|exact Hx|exact Ht|exact H|]. intros Hv -> c Hc. by eapply fam_order.
Qed.

(** ** What a step does to the supervisor itself, and to its children *)
Lemma own_fstep n s ev o s' e : hp n = true -> finv s ev -> xinv (hp n) s ev -> special o = false -> nstep n s o = Ok (s', e) -> own_moves (f_cm s) e (f_cm s').
Proof.
  intros Hp Hf Hx Hsp H. pose proof H as Hsh. apply step_shape in Hsh as [fo ea co s1 s2 l P Hm Hs Hfi Hl|He So]; [subst s'|subst e].
  - destruct (manage_keeps _ _ _ _ _ _ _ _ _ Hm) as (_ & _ & _ & _ & Hst). cbn.
    eapply own_pre; [eapply (step_own (hp n) (pol n) (sync n)); [by left| |exact Hst]|..].
    + destruct co; try done; cbn in Hfi; try congruence. destruct Hfi as [?|Hq]; [congruence|]. eapply (x_bad _ _ _ Hx Hp); [|by left]. by left.
    + by destruct (pr_cm _ _ _ P) as [->|[y ->]].
    + by destruct (pr_cm _ _ _ P) as [->|[y ->]].
  - destruct (so_cm _ _ So) as [M ->]. apply own_quiet; try done; apply not_elem_of_nil.
Qed.
Lemma left_kept n s ev o s' e : finv s ev -> nstep n s o = Ok (s', e) -> f_phase s = PLeft -> f_phase s' = PLeft.
Proof.
  intros Hf H Hp. pose proof H as Hsh. apply step_shape in Hsh as [fo ea co s1 s2 l P Hm Hs Hfi Hl|He So]; [subst s'|subst e]; [|by rewrite (so_phase _ _ So)].
  cbn. rewrite (manage_phase _ _ _ _ _ _ _ _ _ Hm). destruct (pr_phase _ _ _ P) as [Hp1|[_ Hp1]]; rewrite Hp1; destruct (decide _) as [Hv|]; try congruence; exfalso.
  - destruct (manage_eff (hp n) (pol n) (sync n) s ev o e Hf fo ea co s1 s2 P Hm Hfi) as (_ & _ & E). pose proof (ef_kind _ _ _ _ E) as Hk. rewrite Forall_forall in Hk.
    apply Hk in Hv. cbn in Hv. subst co. destruct Hfi as [_ ?]. congruence.
  - destruct (manage_eff (hp n) (pol n) (sync n) s ev o e Hf fo ea co s1 s2 P Hm Hfi) as (_ & _ & E). pose proof (ef_kind _ _ _ _ E) as Hk. rewrite Forall_forall in Hk.
    apply Hk in Hv. cbn in Hv. subst co. destruct Hfi as [_ ?]. congruence.
Qed.

(** ** A child supervisor, seen from both sides *)
Definition pleaded (p : list N) (pd : node) (c : N) : Prop :=
  exists ops1 ops2 s1 ev1 st, n_ops pd = ops1 ++ FShutdown c :: ops2 /\ run (nstep p) (finit (hp p)) ops1 = Ok (s1, ev1) /\
    ECreated c ∈ ev1 /\ state_of s1 c = Some st /\ rank st < 5.
Record linked (p : list N) (pd : node) (c : N) (m : node) : Prop := {
  lk_state : state_of (n_fam pd) c = Some (sup_state m);
  lk_init : forall ch, cm_children (f_cm (n_fam pd)) !! c = Some ch -> ch_state ch = AInitializing -> ch_initreq ch = cm_initreq (f_cm (n_fam m));
  lk_left : sup_state m = AShutDown -> f_phase (n_fam m) = PLeft;
  lk_plea : ESelfShutdown ∈ n_ev m -> pleaded p pd c }.
Lemma plead_grow p pd c s o e : pleaded p pd c -> pleaded p (grow pd s o e) c.
Proof.
  intros (o1 & o2 & s1 & e1 & st & H1 & H2). exists o1, (o2 ++ [o]), s1, e1, st. split; [|done]. cbn. rewrite H1. by rewrite <-app_assoc.
Qed.
Lemma up_keep p pd c n nd s o e : n = c :: p -> nodeok n nd -> nstep n (n_fam nd) o = Ok (s, e) -> special o = false -> ESelfShutdown ∉ e -> EInitError ∉ e ->
  linked p pd c nd -> linked p pd c (grow nd s o e).
Proof.
  intros -> Hn H Hsp H1 H2 [L1 L2 L3 L4]. destruct (own_fstep (c :: p) _ _ o s e eq_refl (no_fin _ _ Hn) (no_x _ _ Hn) Hsp H) as (O1 & O2 & O3).
  destruct O2 as [[O2 _]|(_ & _ & _ & ?)]; [|done]. unfold sup_state in *. split; unfold sup_state; cbn.
  - by rewrite O1.
  - by rewrite O2.
  - rewrite O1. intros Hd. eapply left_kept; [by apply (no_fin _ _ Hn)|exact H|auto].
  - intros Hx. apply elem_of_app in Hx as [Hx|?]; [auto|done].
Qed.
Lemma kid_step n nd s o e c : nodeok n nd -> nstep n (n_fam nd) o = Ok (s, e) -> ECreated c ∈ n_ev nd -> cm_children (f_cm s) !! c = after (n_fam nd) o c.
Proof.
  intros Hn H Hc. pose proof (no_fin _ _ Hn) as Hf. destruct (h_next _ _ (ai_h _ _ _ (fi_all _ _ Hf)) c Hc) as [Hc0 Hlt].
  eapply step_child; [apply Hf|exact H|done|done].
Qed.
Lemma down_keep n nd s o e c m : nodeok n nd -> nstep n (n_fam nd) o = Ok (s, e) -> ECreated c ∈ n_ev nd ->
  after (n_fam nd) o c = cm_children (f_cm (n_fam nd)) !! c -> linked n nd c m -> linked n (grow nd s o e) c m.
Proof.
  intros Hn H Hc Ha [L1 L2 L3 L4]. pose proof (kid_step _ _ _ _ _ _ Hn H Hc) as Hk. rewrite Ha in Hk. split; cbn.
  - unfold state_of in *. by rewrite Hk.
  - by rewrite Hk.
  - done.
  - intros Hx. by apply plead_grow, L4.
Qed.

(** ** The tree *)
Record tinv (E : list N -> Prop) (t : tstate) : Prop := {
  te_node : forall n nd, t !! n = Some nd -> nodeok n nd;
  te_par : forall c n m, t !! (c :: n) = Some m -> exists nd, t !! n = Some nd /\ ECreated c ∈ n_ev nd;
  te_link : forall c n m nd, t !! (c :: n) = Some m -> t !! n = Some nd -> ~ E (c :: n) -> linked n nd c m }.
Lemma t_eq (t : tstate) n x : <[n := x]> t !! n = Some x.
Proof. apply lookup_insert. Qed.
Lemma t_ne (t : tstate) n m x : n <> m -> <[n := x]> t !! m = t !! m.
Proof. apply lookup_insert_ne. Qed.
Lemma cons_ne (c : N) n : c :: n <> n.
Proof. intros H. apply (f_equal length) in H. cbn in H. lia. Qed.

Lemma local_inv E t n o nd : tinv E t -> t !! n = Some nd -> orderly (n_fam nd) o -> timely (n_fam nd) o ->
  exists s e, nstep n (n_fam nd) o = Ok (s, e) /\ local t n o = Ok (<[n := grow nd s o e]> t, e) /\ nodeok n (grow nd s o e) /\
    forall E' : list N -> Prop, (forall x, x <> n -> (forall c, x <> c :: n) -> E x -> E' x) ->
      (forall c p pd, n = c :: p -> t !! p = Some pd -> ~ E' n -> linked p pd c (grow nd s o e)) ->
      (forall c m, t !! (c :: n) = Some m -> ECreated c ∈ n_ev nd -> ~ E' (c :: n) -> linked n (grow nd s o e) c m) ->
      tinv E' (<[n := grow nd s o e]> t).
Proof.
  intros [T1 T2 T3] Hn Ho Ht. pose proof (T1 n nd Hn) as Hok. destruct (node_step n nd o Hok Ho Ht) as (s & e & H & Hok'). exists s, e.
  split; [done|]. split; [unfold TreeModel.local; rewrite Hn, H; done|]. split; [done|]. intros E' HE Hup Hdn. split.
  - intros n' nd' H'. destruct (decide (n = n')) as [<-|Hne]; [rewrite t_eq in H'; by injection H' as <-|rewrite t_ne in H' by done; auto].
  - intros c n' m H'. destruct (decide (n = c :: n')) as [->|Hne].
    + destruct (T2 c n' nd Hn) as (pd & Hp & Hc). exists pd. split; [|done]. rewrite t_ne; [done|]. apply cons_ne.
    + rewrite t_ne in H' by done. destruct (T2 c n' m H') as (pd & Hp & Hc). destruct (decide (n = n')) as [<-|Hne'].
      * exists (grow nd s o e). rewrite t_eq. split; [done|]. rewrite Hn in Hp. injection Hp as <-. cbn. apply elem_of_app. by left.
      * exists pd. by rewrite t_ne.
  - intros c n' m pd H' Hp HnE. destruct (decide (n = c :: n')) as [->|Hne].
    + rewrite t_eq in H'. injection H' as <-. rewrite t_ne in Hp by apply cons_ne. eapply Hup; eauto.
    + rewrite t_ne in H' by done. destruct (decide (n = n')) as [<-|Hne'].
      * rewrite t_eq in Hp. injection Hp as <-. destruct (T2 c n m H') as (pd & Hp & Hc). rewrite Hn in Hp. injection Hp as <-. by apply Hdn.
      * rewrite t_ne in Hp by done. apply T3; auto. intros HE1. apply HnE, HE; [congruence| |done]. intros d Heq. injection Heq as _ Heq. congruence.
Qed.

(** ** Operations of two nodes *)
Definition childop (o : fop) : option (N * fop) :=
  match o with FChildInit c false => Some (c, FInitialized) | FChildStart c => Some (c, FStarted) | FChildDone c => Some (c, FShutDown) | _ => None end.
Definition sup_after (o : fop) (st : astate) (ir : bool) : astate * bool :=
  match o with
  | FParentInit => (st, if bool_decide (st = AInitializing) then true else ir)
  | FParentShutdown => (if rank st <? 5 then AShuttingDown else st, ir)
  | FInitialized => if bool_decide (st = AInitializing) && ir then (AInitialized, false) else (st, ir)
  | FStarted => (if bool_decide (st = AInitialized) then AOperational else st, ir)
  | FShutDown => (if bool_decide (st = AShuttingDown) then AShutDown else st, ir)
  | _ => (st, ir)
  end.
Lemma special_step n s o s' e : hp n = true -> special o = true -> nstep n s o = Ok (s', e) ->
  (cm_state (f_cm s'), cm_initreq (f_cm s')) = sup_after o (cm_state (f_cm s)) (cm_initreq (f_cm s)) /\ ESelfShutdown ∉ e /\ EInitError ∉ e.
Proof.
  intros Hp Hsp H. unfold TreeModel.nstep in H. rewrite Hp in H. destruct o; try done; cbn -[FamilyModel.manage] in H; unfold manage0 in H.
  - case_bool_decide as Hs; cbn -[FamilyModel.manage] in H; cycle 1.
    { injection H as <- <-. cbn. rewrite bool_decide_false by done. split; [done|]. split; apply not_elem_of_nil. }
    destruct (cm_initreq (f_cm s)) eqn:Hi; cbn -[FamilyModel.manage] in H; cycle 1.
    { injection H as <- <-. cbn. rewrite bool_decide_true by done. cbn. rewrite Hi. split; [done|]. split; apply not_elem_of_nil. }
    unfold FamilyModel.manage in H. cbn in H. rewrite Hs in H. cbn in H. injection H as <- <-. cbn. rewrite bool_decide_true by done. cbn. split; [done|]. split; apply not_elem_of_nil.
  - assert (Hk : forall e', (forall x, x ∈ e' -> exists a, x = EStart a) -> (ESelfShutdown ∉ ESupStart :: e') /\ EInitError ∉ ESupStart :: e').
    { intros e' He. split; intros Hx; apply elem_of_cons in Hx as [?|Hx]; try done; by apply He in Hx as [? ?]. }
    destruct (manage_keeps _ _ _ _ _ _ _ _ _ H) as (_ & _ & _ & _ & Hst). cbn in Hst. cbn. case_bool_decide as Hs; cycle 1.
    { injection Hst as <- <-. split; [done|]. split; apply not_elem_of_nil. }
    unfold handle_start in Hst. destruct (sync n); injection Hst as <- <-; (split; [done|]); apply Hk.
    + intros x Hx. apply elem_of_list_omap in Hx as ([a i] & _ & Hx). destruct (a =? 0); [done|]. injection Hx as <-. by eexists.
    + intros x Hx. by apply elem_of_nil in Hx.
  - destruct (manage_keeps _ _ _ _ _ _ _ _ _ H) as (_ & _ & _ & _ & Hst). cbn in Hst. injection Hst as <- <-. cbn. case_bool_decide; cbn; (split; [done|]); split; apply not_elem_of_nil.
  - destruct (manage_keeps _ _ _ _ _ _ _ _ _ H) as (_ & _ & _ & _ & Hst). cbn in Hst. destruct (cm_state (f_cm s)) eqn:Hs; cbn in Hst; injection Hst as <- <-; cbn; rewrite ?Hs; (split; [done|]); split; apply not_elem_of_nil.
  - destruct (manage_keeps _ _ _ _ _ _ _ _ _ H) as (_ & _ & _ & _ & Hst). cbn in Hst. destruct (cm_state (f_cm s)) eqn:Hs; cbn in Hst; injection Hst as <- <-; cbn; rewrite ?Hs; (split; [done|]); split; apply not_elem_of_nil.
Qed.

(** A child supervisor and the record of it change in the same way. *)
Lemma pair_keep n nd sn on en c m sc oc ec : nodeok n nd -> nstep n (n_fam nd) on = Ok (sn, en) -> ECreated c ∈ n_ev nd ->
  nodeok (c :: n) m -> nstep (c :: n) (n_fam m) oc = Ok (sc, ec) -> linked n nd c m ->
  (downcall (n_fam nd) on = Some (c, oc) \/ childop on = Some (c, oc)) ->
  (oc = FShutDown -> 0 ∈ f_bye (n_fam m) /\ c ∈ f_bye (n_fam nd)) ->
  linked n (grow nd sn on en) c (grow m sc oc ec).
Proof.
  intros Hn H Hc Hm Hco [L1 L2 L3 L4] Hd Hb. pose proof (kid_step _ _ _ _ _ _ Hn H Hc) as Hk. pose proof (no_x _ _ Hn) as Hx. pose proof (no_fin _ _ Hn) as Hf.
  assert (Hc0 : c <> 0) by apply (h_next _ _ (ai_h _ _ _ (fi_all _ _ Hf)) c Hc).
  assert (Hsp : special oc = true).
  { destruct Hd as [Hd|Hd].
    - assert (Hh : forall s d x, handled s d x = Some (c, oc) -> special oc = true) by (intros s d x; unfold handled; destruct (decide _); [done|]; destruct x; try done; by intros [= _ <-]).
      unfold downcall in Hd. destruct on; try done; [destruct (f_q (n_fam nd)) as [|[] ?]; try done; destruct (_ || _); try done|destruct (downl (n_fam nd) c0); [done|]]; by eapply Hh.
    - destruct on; try done; [destruct failed; [done|]|..]; by injection Hd as _ <-. }
  destruct (special_step (c :: n) _ oc sc ec eq_refl Hsp Hco) as (Hs & Hse & _).
  destruct (cm_children (f_cm (n_fam nd)) !! c) as [ch|] eqn:Hch; [|unfold state_of in L1; by rewrite Hch in L1].
  unfold state_of in L1. rewrite Hch in L1. cbn in L1. injection L1 as L1. specialize (L2 ch eq_refl). unfold sup_state in *.
  assert (Hlf : f_phase (n_fam m) = PLeft -> f_phase sc = PLeft) by (intros Hp; eapply left_kept; [by apply (no_fin _ _ Hm)|exact Hco|done]).
  assert (Hdn : handled (n_fam nd) c (MShutReq c) <> None -> ch_state ch <> AShutDown).
  { intros Hh Hst. apply Hh. unfold handled. rewrite decide_True; [done|]. apply (x_down _ _ _ Hx); [done|]. unfold state_of. by rewrite Hch, <-Hst. }
  assert (HP : exists ch', after (n_fam nd) on c = Some ch' /\ ch_state ch' = (sup_after oc (cm_state (f_cm (n_fam m))) (cm_initreq (f_cm (n_fam m)))).1 /\
    (ch_state ch' = AInitializing -> ch_initreq ch' = (sup_after oc (cm_state (f_cm (n_fam m))) (cm_initreq (f_cm (n_fam m)))).2) /\
    (ch_state ch' = AShutDown -> ch_state ch = AShutDown \/ oc = FShutDown)).
  { unfold after. rewrite Hch. cbn -[downcall]. eexists. split; [reflexivity|]. rewrite <-L1.
    assert (HI : oc = FParentInit -> forall chx, chx = Child (ch_state ch) (ch_abn ch) true -> ch_state chx = (sup_after oc (ch_state ch) (cm_initreq (f_cm (n_fam m)))).1 /\
      (ch_state chx = AInitializing -> ch_initreq chx = (sup_after oc (ch_state ch) (cm_initreq (f_cm (n_fam m)))).2) /\ (ch_state chx = AShutDown -> ch_state ch = AShutDown \/ oc = FShutDown)).
    { intros -> chx ->. cbn. split; [done|]. split; [|by left]. intros Hi. by rewrite bool_decide_true. }
    assert (HS : oc = FParentShutdown -> ch_state ch <> AShutDown -> forall ab chx, chx = Child AShuttingDown ab (ch_initreq ch) -> ch_state chx = (sup_after oc (ch_state ch) (cm_initreq (f_cm (n_fam m)))).1 /\
      (ch_state chx = AInitializing -> ch_initreq chx = (sup_after oc (ch_state ch) (cm_initreq (f_cm (n_fam m)))).2) /\ (ch_state chx = AShutDown -> ch_state ch = AShutDown \/ oc = FShutDown)).
    { intros -> Hne ab chx ->. cbn. split; [by destruct (ch_state ch)|done]. }
    destruct Hd as [Hd|Hd].
    - assert (Hh : exists d x, handled (n_fam nd) d x = Some (c, oc)).
      { unfold downcall in Hd. destruct on; try done; [destruct (f_q (n_fam nd)) as [|[] ?]; try done; destruct (_ || _); try done|destruct (downl (n_fam nd) c0); [done|]]; eauto. }
      destruct Hh as (d & x & Hh). assert (Hio : (oc = FParentInit \/ oc = FParentShutdown) /\ handled (n_fam nd) c (MShutReq c) <> None).
      { unfold handled in *. destruct (decide (d ∈ _)) as [|Hnb]; [done|]. destruct x; try done; injection Hh as -> <-; rewrite decide_False by done; auto. }
      destruct Hio as [Hio Hhd]. specialize (Hdn Hhd).
      destruct on; try done; rewrite Hd; destruct Hio as [-> | ->]; rewrite N.eqb_refl; first [by apply HI|by eapply HS].
    - destruct on; try done; [destruct failed; [done|]|..]; injection Hd as -> <-; cbn -[N.eqb]; rewrite N.eqb_refl; cbn.
      + case_bool_decide as Hi; cbn.
        * rewrite (L2 Hi). destruct (cm_initreq (f_cm (n_fam m))); cbn; [done|]. rewrite Hi, (L2 Hi). done.
        * split; [done|]. split; [done|by left].
      + case_bool_decide as Hi; cbn; [done|]. split; [done|]. split; [done|by left].
      + destruct (Hb eq_refl) as [_ Hb2]. rewrite (bool_decide_true (c ∈ f_bye (n_fam nd))) by done. case_bool_decide as Hi; cbn; [split; [done|]; split; [done|by right]|].
        split; [done|]. split; [done|by left]. }
  destruct HP as (ch' & Ha & P1 & P2 & P3). rewrite Ha in Hk. rewrite <-Hs in P1, P2. cbn in P1, P2.
  split; unfold sup_state; cbn -[FamilyModel.manage].
  - unfold state_of. by rewrite Hk, <-P1.
  - rewrite Hk. by intros ? [= <-].
  - rewrite <-P1. intros Hst. apply Hlf. destruct (P3 Hst) as [Hst'|Ho]; [apply L3; by rewrite <-L1|]. destruct (Hb Ho) as [Hb0 _]. by apply (fi_bye _ _ (no_fin _ _ Hm)).
  - intros Hx'. apply elem_of_app in Hx' as [Hx'|?]; [|done]. by apply plead_grow, L4.
Qed.

(** ** What the parent is told *)
Record lacks (l : list cevent) (p : list N) (pd : node) (c : N) (m : node) : Prop := {
  la_state : state_of (n_fam pd) c = Some (sup_state m);
  la_init : forall ch, cm_children (f_cm (n_fam pd)) !! c = Some ch -> ch_state ch = AInitializing ->
    ch_initreq ch = cm_initreq (f_cm (n_fam m)) \/ (EInitError ∈ l /\ ch_initreq ch = true /\ cm_initreq (f_cm (n_fam m)) = false);
  la_left : sup_state m = AShutDown -> f_phase (n_fam m) = PLeft;
  la_plea : ESelfShutdown ∈ n_ev m -> pleaded p pd c \/ ESelfShutdown ∈ l;
  la_rank : ESelfShutdown ∈ l -> rank (sup_state m) < 5;
  la_err : EInitError ∈ l -> cm_initreq (f_cm (n_fam m)) = false }.
Lemma lacks_nil p pd c m : lacks [] p pd c m -> linked p pd c m.
Proof.
  intros [A1 A2 A3 A4 A5 A6]. split; [done|..|done|].
  - intros ch H1 H2. destruct (A2 ch H1 H2) as [?|[Hx _]]; [done|by apply elem_of_nil in Hx].
  - intros H. destruct (A4 H) as [?|Hx]; [done|by apply elem_of_nil in Hx].
Qed.
Lemma quiet_ops n s o s' e : match o with FShutdown _ | FChildInit _ _ | FChildStart _ | FChildDone _ => True | _ => False end -> nstep n s o = Ok (s', e) -> e = [].
Proof.
  intros Ho H. unfold TreeModel.nstep in H. destruct o; try done; cbn in H.
  - destruct (a =? 0); [by injection H|]. destruct (_ !! a); by injection H.
  - destruct (child_ready s c AInitializing) as [ch|]; [|by injection H]. destruct (ch_initreq ch); by injection H.
  - destruct (child_ready s c AInitialized); by injection H.
  - destruct (child_ready s c AShuttingDown); [|by injection H]. destruct (decide _); by injection H.
Qed.

Lemma upcalls_inv n m l : forall u, tinv (fun x => x = n) u -> u !! n = Some m ->
  (forall c p pd, n = c :: p -> u !! p = Some pd -> lacks l p pd c m) ->
  exists u', upcalls pol sync u n l = Ok u' /\ tinv (fun _ => False) u'.
Proof.
  induction l as [|x l IH]; intros u Ht Hm Hl.
  - exists u. split; [done|]. destruct Ht as [T1 T2 T3]. split; [done|done|]. intros c p m' pd H1 H2 _. destruct (decide (c :: p = n)) as [<-|Hne].
    + rewrite Hm in H1. injection H1 as <-. by apply lacks_nil, Hl.
    + by apply T3.
  - destruct n as [|c p].
    { cbn. apply IH; try done. }
    destruct (te_par _ _ Ht c p m Hm) as (pd & Hp & Hcr). pose proof (Hl c p pd eq_refl Hp) as [A1 A2 A3 A4 A5 A6].
    assert (Hstep : forall o, match o with FShutdown d => d = c | FChildInit d f => d = c /\ f = true | _ => False end ->
      (forall s, nstep p (n_fam pd) o = Ok (s, []) -> nodeok p (grow pd s o []) -> lacks l p (grow pd s o []) c m) ->
      exists u', rbind (local u p o) (fun '(t1, _) => upcalls pol sync t1 (c :: p) l) = Ok u' /\ tinv (fun _ => False) u').
    { intros o Ho Hla. assert (Hq : match o with FShutdown _ | FChildInit _ _ | FChildStart _ | FChildDone _ => True | _ => False end) by (by destruct o).
      destruct (local_inv _ u p o pd Ht Hp) as (s & e & H & Hlo & Hok & HE); [by destruct o|by destruct o|].
      pose proof (te_node _ _ Ht p pd Hp) as Hpok. pose proof (quiet_ops _ _ _ _ _ Hq H) as He. subst e. rewrite Hlo. cbn [rbind]. apply IH.
      - apply HE.
        + auto.
        + intros c' p' ppd -> Hpp Hne. eapply up_keep; [reflexivity|exact Hpok|exact H|by destruct o|apply not_elem_of_nil..|]. eapply (te_link _ _ Ht); eauto.
        + intros d md Hd Hcd Hne. eapply down_keep; [exact Hpok|exact H|exact Hcd| |].
          * assert (Hdc : d <> c) by congruence. unfold after. destruct (_ !! d) as [ch|]; [|done]. cbn. f_equal. destruct o; try done. destruct Ho as [-> ->].
            destruct (N.eqb_spec c d); [congruence|done].
          * by apply (te_link _ _ Ht).
      - rewrite t_ne; [done|]. intros Hx. symmetry in Hx. by apply cons_ne in Hx.
      - intros c' p' pd' Hcp Hp'. injection Hcp as <- <-. rewrite t_eq in Hp'. injection Hp' as <-. by apply Hla. }
    pose proof (te_node _ _ Ht p pd Hp) as Hpok.
    destruct (decide (x = ESelfShutdown)) as [->|Hx1]; [|destruct (decide (x = EInitError)) as [->|Hx2]].
    + cbn -[TreeModel.local]. apply Hstep; [done|]. intros s H Hok. pose proof (kid_step _ _ _ _ _ _ Hpok H Hcr) as Hk.
      assert (Ha : after (n_fam pd) (FShutdown c) c = cm_children (f_cm (n_fam pd)) !! c) by (unfold after; by destruct (_ !! c)). rewrite Ha in Hk. split; cbn.
      * unfold state_of in *. by rewrite Hk.
      * rewrite Hk. intros ch H1 H2. destruct (A2 ch H1 H2) as [?|(H3 & ? & ?)]; [by left|right]. split; [|done]. apply elem_of_cons in H3 as [?|?]; done.
      * done.
      * intros _. left. exists (n_ops pd), [], (n_fam pd), (n_ev pd), (sup_state m). split; [done|]. split; [apply Hpok|]. split; [done|]. split; [done|]. apply A5. left.
      * intros Hx. apply A5. by right.
      * intros Hx. apply A6. by right.
    + cbn -[TreeModel.local]. apply Hstep; [done|]. intros s H Hok. pose proof (kid_step _ _ _ _ _ _ Hpok H Hcr) as Hk.
      destruct (cm_children (f_cm (n_fam pd)) !! c) as [ch|] eqn:Hch; [|unfold state_of in A1; by rewrite Hch in A1].
      unfold after in Hk. rewrite Hch in Hk. cbn -[N.eqb] in Hk. rewrite N.eqb_refl in Hk. cbn in Hk.
      assert (A1' : ch_state ch = sup_state m) by (unfold state_of in A1; rewrite Hch in A1; by injection A1).
      split; cbn.
      * unfold state_of. rewrite Hk. cbn. rewrite <-A1'. case_bool_decide as Hi; cbn; [|done]. destruct (ch_initreq ch); cbn; by rewrite Hi.
      * rewrite Hk. intros ch' Hch' Hi. injection Hch' as <-. left. case_bool_decide as Hi0; cbn in *; [|done]. destruct (A2 ch eq_refl Hi0) as [Hq|(Hq & Hr & Hs)].
        -- destruct (ch_initreq ch) eqn:Hci; cbn in *; [|congruence].
           rewrite A6 in Hq by left. done.
        -- rewrite Hr. cbn. congruence.
      * done.
      * intros Hx. destruct (A4 Hx) as [Hx'|Hx']; [left; by apply plead_grow|]. apply elem_of_cons in Hx' as [?|?]; [done|by right].
      * intros Hx. apply A5. by right.
      * intros Hx. apply A6. by right.
    + assert (Hu : upcall pol sync u (c :: p) x = Ok (u, [])) by (by destruct x). cbn -[TreeModel.local upcall]. rewrite Hu. cbn -[upcall].
      apply IH; [done|done|]. intros c' p' pd' Hcp Hp'. injection Hcp as <- <-. rewrite Hp in Hp'. injection Hp' as <-. split; [done| |done| | |].
      * intros ch H1 H2. destruct (A2 ch H1 H2) as [?|(H3 & ? & ?)]; [by left|right]. split; [|done]. apply elem_of_cons in H3 as [?|?]; done.
      * intros Hx. destruct (A4 Hx) as [?|Hx']; [by left|right]. by apply elem_of_cons in Hx' as [?|?].
      * intros Hx. apply A5. by right.
      * intros Hx. apply A6. by right.
Qed.

Lemma tinv_weak (E E' : list N -> Prop) t : (forall x, E x -> E' x) -> tinv E t -> tinv E' t.
Proof. intros H [T1 T2 T3]. split; [done|done|]. intros c n m nd H1 H2 H3. apply T3; auto. Qed.

(** ** Every step of the tree *)
Notation good := (tinv (fun _ => False)).
Lemma good_link t c n m nd : good t -> t !! (c :: n) = Some m -> t !! n = Some nd -> linked n nd c m.
Proof. intros [_ _ T] H1 H2. by apply T; [| |intros ?]. Qed.
Lemma both_inv t n c oc on nd m : good t -> t !! n = Some nd -> t !! (c :: n) = Some m -> childop on = Some (c, oc) ->
  (oc = FShutDown -> 0 ∈ f_bye (n_fam m) /\ c ∈ f_bye (n_fam nd)) -> exists t' e, both pol sync t n c oc on = Ok (t', e) /\ good t'.
Proof.
  intros Ht Hn Hm Hco Hb. assert (Hsp : special oc = true /\ special on = false /\ match on with FShutdown _ | FChildInit _ _ | FChildStart _ | FChildDone _ => True | _ => False end).
  { destruct on; try done; [destruct failed; [done|]|..]; by injection Hco as _ <-. }
  destruct Hsp as (Hsp & Hsn & Hq). destruct (te_par _ _ Ht c n m Hm) as (nd' & Hn' & Hcr). rewrite Hn in Hn'. injection Hn' as <-.
  pose proof (te_node _ _ Ht n nd Hn) as Hnok. pose proof (te_node _ _ Ht _ m Hm) as Hmok.
  destruct (local_inv _ t (c :: n) oc m Ht Hm) as (sc & ec & Hc & Hlc & Hcok & HE); [by destruct oc|by destruct oc|].
  assert (T1 : tinv (fun x => x = c :: n) (<[c :: n := grow m sc oc ec]> t)).
  { apply HE; [done|done|]. intros d md Hd Hcd _. eapply down_keep; [exact Hmok|exact Hc|exact Hcd| |by eapply good_link].
    unfold after. destruct (_ !! d); [|done]. by destruct oc. }
  assert (Hn1 : <[c :: n := grow m sc oc ec]> t !! n = Some nd) by (rewrite t_ne; [done|apply cons_ne]).
  destruct (local_inv _ _ n on nd T1 Hn1) as (sn & en & Hs & Hln & Hsok & HE2); [by destruct on|by destruct on|].
  pose proof (quiet_ops _ _ _ _ _ Hq Hs) as He. subst en.
  eexists _, _. unfold both. rewrite Hlc. cbn [rbind]. split; [exact Hln|]. apply HE2.
  - intros x _ Hx ->. by apply (Hx c).
  - intros c' p' pd -> Hpp _. eapply up_keep; [reflexivity|exact Hnok|exact Hs|exact Hsn|apply not_elem_of_nil..|].
    rewrite t_ne in Hpp; [by eapply good_link|]. intros Hx. apply (f_equal length) in Hx. cbn in Hx. lia.
  - intros d md Hd Hcd _. destruct (decide (d = c)) as [->|Hne].
    + rewrite t_eq in Hd. injection Hd as <-. eapply pair_keep; [exact Hnok|exact Hs|exact Hcd|exact Hmok|exact Hc|by eapply good_link|by right|exact Hb].
    + rewrite t_ne in Hd by congruence. eapply down_keep; [exact Hnok|exact Hs|exact Hcd| |by eapply good_link].
      unfold after. destruct (_ !! d); [|done]. cbn. f_equal. destruct on; try done; [destruct failed; [done|]|..]; injection Hco as -> _; cbn;
      (destruct (N.eqb_spec c d); [congruence|done]).
Qed.

Lemma after_other s o d : (forall oc, downcall s o <> Some (d, oc)) -> match o with FChildInit x _ | FChildStart x | FChildDone x => x <> d | _ => True end ->
  after s o d = cm_children (f_cm s) !! d.
Proof.
  intros Hd Ho. unfold after. destruct (_ !! d) as [ch|]; [|done]. cbn -[downcall]. f_equal. destruct o; try done.
  - destruct (downcall _ _) as [[x []]|]; try done; (destruct (N.eqb_spec x d) as [->|]; [|done]); exfalso; by eapply Hd.
  - destruct (downcall _ _) as [[x []]|]; try done; (destruct (N.eqb_spec x d) as [->|]; [|done]); exfalso; by eapply Hd.
  - by destruct (N.eqb_spec c d).
  - by destruct (N.eqb_spec c d).
  - by destruct (N.eqb_spec c d).
Qed.
Lemma op_inv t n o nd : good t -> t !! n = Some nd -> orderly (n_fam nd) o -> timely (n_fam nd) o -> exists t' e, tstep t (TOp n o) = Ok (t', e) /\ good t'.
Proof.
  intros Ht Hn Ho Hti. cbn -[TreeModel.local upcalls downcall]. rewrite Hn. destruct (shared t n o || negb (ready (n_fam nd) o)) eqn:Hsh; [by eexists _, _|].
  apply orb_false_elim in Hsh as [Hsh _]. pose proof (te_node _ _ Ht n nd Hn) as Hnok.
  destruct (local_inv _ t n o nd Ht Hn Ho Hti) as (s & e & Hs & Hlo & Hok & HE). rewrite Hlo. cbn [rbind].
  assert (Hspec : hp n = true -> special o = false) by (intros Hp; destruct o; try done; cbn in Hsh; congruence).
  assert (Hoth : forall d md, t !! (d :: n) = Some md -> match o with FChildInit x _ | FChildStart x | FChildDone x => x <> d | _ => True end).
  { intros d md Hd. destruct o; try done; intros ->; cbn in Hsh; rewrite bool_decide_true in Hsh; try done; by rewrite Hd. }
  assert (T1 : tinv (fun x => x = n \/ exists c oc, downcall (n_fam nd) o = Some (c, oc) /\ x = c :: n) (<[n := grow nd s o e]> t)).
  { apply HE; [done| |].
    - intros c p pd _ _ Hx. exfalso. apply Hx. by left.
    - intros d md Hd Hcd Hx. eapply down_keep; [exact Hnok|exact Hs|exact Hcd| |by eapply good_link]. apply after_other; [|by eapply Hoth].
      intros oc Hoc. apply Hx. right. eauto. }
  assert (HB : exists t2 e2, match downcall (n_fam nd) o with Some (c, oc) => local (<[n := grow nd s o e]> t) (c :: n) oc | None => Ok (<[n := grow nd s o e]> t, []) end = Ok (t2, e2) /\
    tinv (fun x => x = n) t2 /\ t2 !! n = Some (grow nd s o e) /\ forall c p, n = c :: p -> t2 !! p = t !! p).
  { assert (Hkeep : forall c p, n = c :: p -> <[n := grow nd s o e]> t !! p = t !! p) by (intros c p ->; rewrite t_ne; [done|apply cons_ne]).
    destruct (downcall (n_fam nd) o) as [[c oc]|] eqn:Hd; cycle 1.
    { eexists _, _. split; [reflexivity|]. split; [|split; [by rewrite t_eq|done]]. eapply tinv_weak; [|exact T1]. by intros x [?|(? & ? & ? & _)]. }
    assert (Hnm : <[n := grow nd s o e]> t !! (c :: n) = t !! (c :: n)) by (rewrite t_ne; [done|]; intros Hx; symmetry in Hx; by apply cons_ne in Hx).
    destruct (t !! (c :: n)) as [m|] eqn:Hm.
    - assert (Hoc : special oc = true /\ oc <> FShutDown /\ orderly (n_fam m) oc /\ timely (n_fam m) oc).
      { assert (Hh : forall s d x, handled s d x = Some (c, oc) -> oc = FParentInit \/ oc = FParentShutdown).
        { intros s0 d x. unfold handled. destruct (decide _); [done|]. destruct x; try done; injection 1 as _ <-; auto. }
        assert (Hx : oc = FParentInit \/ oc = FParentShutdown).
        { unfold downcall in Hd. destruct o; try done; [destruct (f_q (n_fam nd)) as [|[] ?]; try done; destruct (_ || _); try done|destruct (downl (n_fam nd) c0); [done|]]; by eapply Hh. }
        destruct Hx as [-> | ->]; done. }
      destruct Hoc as (Hsp & Hns & Hor & Htm). destruct (local_inv _ _ (c :: n) oc m T1 Hnm Hor Htm) as (sc & ec & Hc & Hlc & Hcok & HE2).
      pose proof (te_node _ _ Ht _ m Hm) as Hmok. destruct (te_par _ _ Ht c n m Hm) as (nd' & Hn' & Hcr). rewrite Hn in Hn'. injection Hn' as <-.
      eexists _, _. split; [exact Hlc|]. split; [|split; [rewrite t_ne by apply cons_ne; apply t_eq|]].
      + apply HE2.
        * intros x Hx _ [?|(c1 & oc1 & Hd1 & ->)]; [done|]. injection Hd1 as -> ->. done.
        * intros c' p' pd Hcp Hp _. injection Hcp as <- <-. rewrite t_eq in Hp. injection Hp as <-. eapply pair_keep; [exact Hnok|exact Hs|exact Hcr|exact Hmok|exact Hc|by eapply good_link|by left|done].
        * intros d md Hdm Hcd _. rewrite t_ne in Hdm by (intros Hx; apply (f_equal length) in Hx; cbn in Hx; lia).
          eapply down_keep; [exact Hmok|exact Hc|exact Hcd| |by eapply good_link]. unfold after. destruct (_ !! d); [|done]. by destruct oc.
      + intros c' p Hcp. rewrite t_ne; [by eapply Hkeep|]. intros Hx. rewrite Hcp in Hx. apply (f_equal length) in Hx. cbn in Hx. lia.
    - unfold TreeModel.local. rewrite Hnm. eexists _, _. split; [reflexivity|]. split; [|split; [by rewrite t_eq|done]].
      destruct T1 as [U1 U2 U3]. split; [done|done|]. intros c' n' m' nd' H1 H2 H3. apply U3; try done. intros [?|(c1 & oc1 & Hd1 & Heq)]; [done|].
      injection Hd1 as -> ->. injection Heq as -> ->. congruence. }
  destruct HB as (t2 & e2 & -> & T2 & Hn2 & Hp2). cbn [rbind].
  destruct (upcalls_inv n (grow nd s o e) e t2 T2 Hn2) as (t3 & -> & T3); [|cbn [rbind]; by eexists _, _].
  intros c p pd Hcp Hp. rewrite (Hp2 c p Hcp) in Hp. subst n. specialize (Hspec eq_refl).
  destruct (own_fstep (c :: p) _ _ o s e eq_refl (no_fin _ _ Hnok) (no_x _ _ Hnok) Hspec Hs) as (O1 & O2 & O3).
  pose proof (good_link _ _ _ _ _ Ht Hn Hp) as [L1 L2 L3 L4]. unfold sup_state in *. split; unfold sup_state; cbn.
  - by rewrite O1.
  - intros ch H1 H2. destruct O2 as [[O2 _]|(O2 & O4 & O5 & O6)]; [left; by rewrite O2, (L2 ch)|right]. split; [done|]. split; [by rewrite (L2 ch)|done].
  - rewrite O1. intros Hd. eapply left_kept; [by apply (no_fin _ _ Hnok)|exact Hs|auto].
  - intros Hx. apply elem_of_app in Hx as [Hx|Hx]; [left; auto|by right].
  - rewrite O1. done.
  - intros Hx. destruct O2 as [[_ ?]|(_ & _ & O5 & _)]; done.
Qed.

Lemma step_good t o : good t -> tidy t o -> exists t' e, tstep t o = Ok (t', e) /\ good t'.
Proof.
  intros Ht Hti. destruct o as [n o|n c|n c|n c|n c].
  - cbn in Hti. destruct (t !! n) as [nd|] eqn:Hn; [|cbn; rewrite Hn; by eexists _, _]. destruct Hti as [Ho Htm]. by eapply op_inv.
  - cbn. destruct (t !! n) as [nd|] eqn:Hn; [|by eexists _, _]. destruct (t !! (c :: n)) eqn:Hc; [by eexists _, _|].
    destruct (child_ready (n_fam nd) c AInitializing) as [ch|] eqn:Hr; [|by eexists _, _]. apply ready_at in Hr as (Hch & Hst & Hc0).
    destruct (_ || _) eqn:Hb; [by eexists _, _|]. apply orb_false_elim in Hb as [Hi _]. eexists _, _. split; [reflexivity|]. destruct Ht as [T1 T2 T3]. split.
    + intros n' nd' H'. destruct (decide (c :: n = n')) as [<-|Hne]; [rewrite t_eq in H'; injection H' as <-; apply (node_init (c :: n))|rewrite t_ne in H' by done; auto].
    + intros c' n' m H'. assert (Hcr : ECreated c ∈ n_ev nd). { apply (x_known _ _ _ (no_x _ _ (T1 n nd Hn))); [|done]. unfold known. by rewrite Hch. }
      destruct (decide (c :: n = c' :: n')) as [Heq|Hne].
      * injection Heq as <- <-. exists nd. rewrite t_ne by apply cons_ne. done.
      * rewrite t_ne in H' by done. destruct (T2 c' n' m H') as (pd & Hp & Hcp). exists pd. rewrite t_ne; [done|]. intros <-. congruence.
    + intros c' n' m pd H' Hp _. destruct (decide (c :: n = c' :: n')) as [Heq|Hne].
      * injection Heq as <- <-. rewrite t_eq in H'. injection H' as <-. rewrite t_ne in Hp by apply cons_ne. rewrite Hn in Hp. injection Hp as <-. split; cbn.
        -- unfold state_of. by rewrite Hch, <-Hst.
        -- rewrite Hch. intros ? [= <-] _. done.
        -- done.
        -- intros Hx. by apply elem_of_nil in Hx.
      * rewrite t_ne in H' by done. rewrite t_ne in Hp; [apply T3; auto|]. intros <-. destruct (T2 _ _ _ H') as (? & ? & _). congruence.
  - cbn -[both]. destruct (t !! (c :: n)) as [m|] eqn:Hc; [|by eexists _, _]. destruct (handle_init _); [|by eexists _, _].
    destruct (te_par _ _ Ht c n m Hc) as (nd & Hn & _). eapply both_inv; try done.
  - cbn -[both]. destruct (t !! (c :: n)) as [m|] eqn:Hc; [|by eexists _, _].
    destruct (te_par _ _ Ht c n m Hc) as (nd & Hn & _). eapply both_inv; try done.
  - cbn -[both]. destruct (t !! n) as [nd|] eqn:Hn; [|by eexists _, _]. destruct (t !! (c :: n)) as [m|] eqn:Hc; [|by eexists _, _]. destruct (decide _) as [Hb|]; [|by eexists _, _].
    eapply both_inv; try done.
Qed.
Lemma init_at n : tinit !! n = match n with [] => Some (Node (finit false) [] []) | _ => None end.
Proof. destruct n; [apply lookup_insert|]. unfold tinit. apply (lookup_singleton_ne (M := gmap (list N))). done. Qed.
Lemma good_init : good tinit.
Proof.
  split.
  - intros [|c n] nd H; rewrite init_at in H; [|done]. injection H as <-. apply (node_init []).
  - intros c n m H. by rewrite init_at in H.
  - intros c n m nd H. by rewrite init_at in H.
Qed.
Lemma tree_safe ops : guarded tstep tidy tinit ops -> exists t ev, run tstep tinit ops = Ok (t, ev).
Proof.
  intros Hg. destruct (run_safe_ev tstep tidy (fun t _ => good t)) with (ops := ops) (s := tinit) (ev := @nil cevent) as (t & e & H & _); [|exact good_init|exact Hg|by eexists _, _].
  intros. by apply step_good.
Qed.
Lemma tree_good ops t ev : guarded tstep tidy tinit ops -> run tstep tinit ops = Ok (t, ev) -> good t.
Proof.
  intros Hg H. refine (run_inv_ev tstep tidy (fun t _ => good t) _ ops tinit [] t ev good_init Hg H).
  intros s0 _ o s' e Ht Ho Hs. destruct (step_good s0 o Ht Ho) as (t' & e' & H' & Hg'). congruence.
Qed.
End proofs.
