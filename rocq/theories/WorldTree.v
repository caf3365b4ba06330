(** What a step of the tree does to the children which are no supervisors. *)
From stdpp Require Import base list gmap.
From Verif Require Import Base StateModel ChildMgrModel ChildMgrSpec ChildMgrProofs ChildMgrTrace ChildMgrFacts FamilyModel FamilySpec FamilySteps FamilyFold FamilyInv FamilyChild FamilyProofs
  ActorModel NetModel SystemModel SystemFam TreeModel TreeSpec TreeSteps TreeInv TreeNode TreeProofs WorldModel.
Open Scope N_scope.

Record calm (c : N) (f f' : fstate) : Prop := { ca_kid : kids f' !! c = kids f !! c; ca_bye : c ∈ f_bye f' <-> c ∈ f_bye f }.
Lemma calm_refl c f : calm c f f.
Proof. by split. Qed.
Lemma told_calm d c f f' e : told d f f' e -> c <> d -> calm c f f'.
Proof. intros [T1 T2 T3 T4] Hc. split; [by apply T2|by rewrite T3]. Qed.

Section tree.
Context (pol : list N -> spolicy) (sync : list N -> bool).
Notation nstep := (TreeModel.nstep pol sync).
Notation local := (local pol sync).
Notation tstep := (tstep pol sync).
Notation nodeok := (nodeok pol sync).
Notation good := (tinv pol sync (fun _ => False)).

Lemma effect_ok n nd o f' e : nodeok n nd -> by_child o = false -> nstep n (n_fam nd) o = Ok (f', e) ->
  match handed (n_fam nd) o with Some (c, a) => given c a (n_fam nd) f' /\ c <> 0 /\ e = [] | None => quietly (n_fam nd) f' e end.
Proof.
  intros Hn Hb H. pose proof (no_fin _ _ _ _ Hn) as Hfi. eapply step_effect; [by destruct (fi_all _ _ Hfi)| |done|exact H].
  intros Hb0. pose proof (fi_rinv _ _ Hfi Hb0) as R. destruct (r_zero _ _ _ R) as (_ & _ & ?), (r_local _ _ _ R 0 (r_f0 _ _ _ R)) as [_ ?]. done.
Qed.
Definition mine (o : fop) : bool := match o with FParentInit | FParentShutdown | FInitialized | FStarted | FShutDown => true | _ => false end.
Lemma mine_none n nd o f' e c : mine o = true -> nstep n (n_fam nd) o = Ok (f', e) -> ECreated c ∉ e.
Proof.
  intros Hm H Hin. unfold TreeModel.nstep in H.
  assert (HM : forall s co s' e', (co = OInitRequest \/ co = OHandleStart \/ exists st, co = OState st) -> FamilyModel.manage0 (hp n) (pol n) (sync n) s co = Ok (s', e') -> ECreated c ∉ e').
  { intros s co s' e' Hco HH Hi. unfold FamilyModel.manage0, FamilyModel.manage in HH. destruct (cstep _ _ _ _ _) as [[cm e1]| |] eqn:Es; cbn [rbind] in HH; try done. injection HH as _ <-.
    destruct Hco as [->|[->|[st ->]]]; cbn in Es.
    - repeat case_match; injection Es as _ <-; by apply elem_of_nil in Hi.
    - destruct (bool_decide _); [|injection Es as _ <-; by apply elem_of_nil in Hi]. unfold handle_start in Es. destruct (sync n); injection Es as _ <-; apply elem_of_cons in Hi as [Hi|Hi]; try done; [|by apply elem_of_nil in Hi].
      apply elem_of_list_omap in Hi as ([a i] & _ & Hi). by destruct (a =? 0).
    - repeat case_match; injection Es as _ <-; by apply elem_of_nil in Hi. }
  destruct o; try done; cbn -[FamilyModel.manage0] in H.
  - destruct (_ && _); [|injection H as _ <-; by apply elem_of_nil in Hin]. destruct (FamilyModel.manage0 _ _ _ _ _) as [[s1 e1]| |] eqn:Em; cbn in H; try done. injection H as _ <-. eapply HM; [|done..]. eauto.
  - eapply HM; [|done..]. eauto.
  - destruct (hp n); [|injection H as _ <-; by apply elem_of_nil in Hin]. eapply HM; [|done..]. eauto.
  - destruct (hp n); [|injection H as _ <-; by apply elem_of_nil in Hin]. eapply HM; [|done..]. eauto.
  - eapply HM; [|done..]. eauto.
Qed.
Lemma mine_calm n nd o f' e c : nodeok n nd -> mine o = true -> nstep n (n_fam nd) o = Ok (f', e) -> c <> 0 -> calm c (n_fam nd) f'.
Proof.
  intros Hn Hm H Hc. pose proof (effect_ok n nd o f' e Hn ltac:(by destruct o) H) as He. replace (handed (n_fam nd) o) with (@None (N * aop)) in He by (by destruct o).
  destruct He as [Q1 Q2 Q3 Q4]. split; [apply Q2; by eapply mine_none|by apply Q3].
Qed.
Lemma child_told n f o f' e : by_child o = true -> nstep n f o = Ok (f', e) -> exists c, (o = FChildInit c true \/ o = FChildInit c false \/ o = FChildStart c \/ o = FChildDone c) /\ e = [] /\ told c f f' [].
Proof.
  intros Hb H. unfold TreeModel.nstep in H. destruct o; try done; exists c; cbn in H.
  - split; [destruct failed; auto|]. repeat match type of H with (match ?t with _ => _ end) = _ => destruct t end; injection H as <- <-; (split; [done|]); try apply told_refl; apply evolve_told.
  - split; [auto|]. repeat match type of H with (match ?t with _ => _ end) = _ => destruct t end; injection H as <- <-; (split; [done|]); try apply told_refl.
    split; try done. intros d Hd. unfold kids. cbn. by rewrite lookup_insert_ne.
  - split; [auto|]. repeat match type of H with (match ?t with _ => _ end) = _ => destruct t end; injection H as <- <-; (split; [done|]); try apply told_refl; apply evolve_told.
Qed.

(** One operation of the supervisor [n], with what it hands down and up. *)
Record stepped (t t' : tstate) (n : list N) (o : fop) (e : list cevent) : Prop := {
  sd_dom : forall x, is_Some (t' !! x) <-> is_Some (t !! x);
  sd_ev : forall x nd nd', t !! x = Some nd -> t' !! x = Some nd' -> forall c, ECreated c ∈ n_ev nd' <-> ECreated c ∈ n_ev nd \/ (x = n /\ ECreated c ∈ e);
  sd_calm : forall x nd nd' c, t !! x = Some nd -> t' !! x = Some nd' -> c <> 0 -> t !! (c :: x) = None -> x <> n -> calm c (n_fam nd) (n_fam nd');
  sd_at : forall nd nd', t !! n = Some nd -> t' !! n = Some nd' -> match handed (n_fam nd) o with Some (c, a) => given c a (n_fam nd) (n_fam nd') /\ c <> 0 /\ e = [] | None => quietly (n_fam nd) (n_fam nd') e end }.
Lemma upcalls_told c p l : c <> 0 -> forall t t', upcalls pol sync t (c :: p) l = Ok t' ->
  (forall x, x <> p -> t' !! x = t !! x) /\ (t !! p = None -> t' !! p = None) /\
  forall nd, t !! p = Some nd -> exists nd', t' !! p = Some nd' /\ n_ev nd' = n_ev nd /\ told c (n_fam nd) (n_fam nd') [].
Proof.
  intros Hc. induction l as [|x l IH]; intros t t' H; cbn [upcalls] in H.
  - injection H as <-. split_and!; [done|done|]. intros nd Hn. exists nd. split_and!; [done|done|apply told_refl].
  - assert (HL : forall o t1 e1, (o = FShutdown c \/ o = FChildInit c true) -> local t p o = Ok (t1, e1) ->
      (forall x, x <> p -> t1 !! x = t !! x) /\ (t !! p = None -> t1 !! p = None) /\ forall nd, t !! p = Some nd -> exists nd', t1 !! p = Some nd' /\ n_ev nd' = n_ev nd /\ told c (n_fam nd) (n_fam nd') []).
    { intros o t1 e1 Ho HL. unfold TreeModel.local in HL. destruct (t !! p) as [nd|] eqn:Hp; [|injection HL as <- _; by split_and!].
      assert (Hs : exists f', nstep p (n_fam nd) o = Ok (f', []) /\ told c (n_fam nd) f' []).
      { unfold TreeModel.nstep. destruct Ho as [->| ->]; [destruct (tell_shut (hp p) (pol p) (sync p) c (n_fam nd) Hc) as (f' & ? & ? & _)|destruct (tell_err (hp p) (pol p) (sync p) c (n_fam nd) Hc) as (f' & ? & ? & _)]; eauto. }
      destruct Hs as (f' & Hs & Ht). rewrite Hs in HL. cbn [rbind] in HL. injection HL as <- _. split_and!; [intros y Hy; by rewrite t_ne|done|].
      intros nd1 [= <-]. rewrite t_eq. eexists. split; [done|]. cbn. by rewrite app_nil_r. }
    assert (HU : exists t1 e1, upcall pol sync t (c :: p) x = Ok (t1, e1) /\ upcalls pol sync t1 (c :: p) l = Ok t').
    { destruct (upcall pol sync t (c :: p) x) as [[t1 e1]| |]; cbn [rbind] in H; [|done..]. eauto. }
    destruct HU as (t1 & e1 & HU & H1). destruct (IH t1 t' H1) as (A1 & A2 & A3).
    assert (HB : (forall x, x <> p -> t1 !! x = t !! x) /\ (t !! p = None -> t1 !! p = None) /\ forall nd, t !! p = Some nd -> exists nd', t1 !! p = Some nd' /\ n_ev nd' = n_ev nd /\ told c (n_fam nd) (n_fam nd') []).
    { destruct x; cbn in HU; try (injection HU as <- _; split_and!; [done|done|]; intros nd Hn; exists nd; split_and!; [done|done|apply told_refl]); eapply HL; [|exact HU| |exact HU]; auto. }
    destruct HB as (B1 & B2 & B3). split_and!.
    + intros y Hy. rewrite A1, B1 by done. done.
    + auto.
    + intros nd Hn. destruct (B3 nd Hn) as (nd1 & C1 & C2 & C3). destruct (A3 nd1 C1) as (nd2 & D1 & D2 & D3). exists nd2. split_and!; [done|congruence|]. exact (told_trans c _ (n_fam nd1) _ [] [] C3 D3).
Qed.
Lemma op_stepped t n o t' e : good t -> by_child o = false -> is_Some (t !! n) -> tstep t (TOp n o) = Ok (t', e) -> stepped t t' n o e.
Proof.
  intros Ht Hbc [nd Hn] H. pose proof H as H0. cbn -[TreeModel.local upcalls downcall] in H. rewrite Hn in H. destruct (shared t n o || negb (ready (n_fam nd) o)) eqn:Hsh.
  { injection H as <- <-. split; try done.
    - intros x nd1 nd2 H1 H2. rewrite H1 in H2. injection H2 as <-. intros c. split; [by left|]. by intros [?|[_ ?%elem_of_nil]].
    - intros x nd1 nd2 c H1 H2. rewrite H1 in H2. injection H2 as <-. intros. apply calm_refl.
    - intros nd1 nd2 H1 H2. rewrite H1 in H2. injection H2 as <-. replace (handed (n_fam nd1) o) with (@None (N * aop)); [by apply quietly_same|].
      destruct o; cbn in Hsh |- *; try done. }
  unfold TreeModel.local at 1 in H. rewrite Hn in H. destruct (nstep n (n_fam nd) o) as [[f1 e1]| |] eqn:Hs; cbn [rbind] in H; [|done..].
  pose proof (effect_ok n nd o f1 e1 (te_node _ _ _ _ Ht n nd Hn) Hbc Hs) as Heff.
  set (nd1 := Node f1 (n_ops nd ++ [o]) (n_ev nd ++ e1)) in *.
  (* downwards *)
  assert (HD : exists t2, (forall x, is_Some (t2 !! x) <-> is_Some (t !! x)) /\ t2 !! n = Some nd1 /\
    (forall x m m', x <> n -> t !! x = Some m -> t2 !! x = Some m' -> (forall c, c <> 0 -> calm c (n_fam m) (n_fam m')) /\ forall c, ECreated c ∈ n_ev m' <-> ECreated c ∈ n_ev m) /\
    exists t3, upcalls pol sync t2 n e1 = Ok t3 /\ t' = t3 /\ e = e1).
  { assert (Hid : forall x, is_Some (<[n := nd1]> t !! x) <-> is_Some (t !! x)).
    { intros x. destruct (decide (x = n)) as [->|]; [rewrite t_eq, Hn; by split; eauto|by rewrite t_ne]. }
    assert (Hsame : forall x m m', x <> n -> t !! x = Some m -> <[n := nd1]> t !! x = Some m' -> (forall c, c <> 0 -> calm c (n_fam m) (n_fam m')) /\ forall c, ECreated c ∈ n_ev m' <-> ECreated c ∈ n_ev m).
    { intros x m m' Hx H1. rewrite t_ne, H1 by done. intros [= <-]. split; [intros; apply calm_refl|done]. }
    destruct (downcall (n_fam nd) o) as [[c oc]|] eqn:Ed; cbn [rbind] in H.
    - unfold TreeModel.local in H. rewrite t_ne in H by (intros E; by apply (cons_ne c n)). destruct (t !! (c :: n)) as [m|] eqn:Hm; cbn [rbind] in H.
      + destruct (nstep (c :: n) (n_fam m) oc) as [[f2 e2]| |] eqn:Hs2; cbn [rbind] in H; [|done..].
        assert (Hoc : mine oc = true).
        { clear -Ed. unfold downcall, handled in Ed. repeat match type of Ed with (match ?t with _ => _ end) = _ => destruct t | (if ?t then _ else _) = _ => destruct t end; try done; by injection Ed as _ <-. }
        exists (<[c :: n := Node f2 (n_ops m ++ [oc]) (n_ev m ++ e2)]> (<[n := nd1]> t)). split_and!.
        * intros x. destruct (decide (x = c :: n)) as [->|]; [rewrite t_eq, Hm; by split; eauto|by rewrite t_ne].
        * rewrite t_ne by (apply cons_ne). apply t_eq.
        * intros x m1 m2 Hx H1 H2. destruct (decide (x = c :: n)) as [->|].
          -- rewrite t_eq in H2. injection H2 as <-. rewrite Hm in H1. injection H1 as <-. cbn. split; [intros d Hd; by eapply mine_calm; [by apply Ht|..]|].
             intros d. rewrite elem_of_app. split; [|by left]. intros [?|Hd]; [done|]. by destruct (mine_none _ _ _ _ _ d Hoc Hs2).
          -- rewrite t_ne in H2 by done. by eapply Hsame.
        * destruct (upcalls _ _ _ n e1) as [t3| |]; cbn [rbind] in H; [|done..]. injection H as <- <-. eauto.
      + exists (<[n := nd1]> t). split_and!; [done|apply t_eq|done|]. destruct (upcalls _ _ _ n e1) as [t3| |]; cbn [rbind] in H; [|done..]. injection H as <- <-. eauto.
    - exists (<[n := nd1]> t). split_and!; [done|apply t_eq|done|]. destruct (upcalls _ _ _ n e1) as [t3| |]; cbn [rbind] in H; [|done..]. injection H as <- <-. eauto. }
  clear H. destruct HD as (t2 & D1 & D2 & D3 & t3 & Hu & -> & ->).
  (* upwards *)
  assert (HU : (forall x, is_Some (t3 !! x) <-> is_Some (t2 !! x)) /\ t3 !! n = Some nd1 /\
    forall x m m', t2 !! x = Some m -> t3 !! x = Some m' -> n_ev m' = n_ev m /\ forall c, n <> c :: x -> calm c (n_fam m) (n_fam m')).
  { destruct n as [|c p].
    - assert (E3 : t3 = t2). { clear -Hu. induction e1 as [|x e1 IH]; cbn in Hu; [by injection Hu|]. destruct x; cbn in Hu; auto. } subst t3. split_and!; [done|done|]. intros x m m' -> [= <-]. split; [done|]. intros. apply calm_refl.
    - destruct (te_par _ _ _ _ Ht c p nd Hn) as (pd & Hp & Hcr). destruct (h_next _ _ (ai_h _ _ _ (fi_all _ _ (no_fin _ _ _ _ (te_node _ _ _ _ Ht p pd Hp)))) c Hcr) as [Hc0 _].
      destruct (upcalls_told c p e1 Hc0 t2 t3 Hu) as (U1 & U2 & U3). split_and!.
      + intros x. destruct (decide (x = p)) as [->|]; [|by rewrite U1]. destruct (t2 !! p) as [m|] eqn:E; [destruct (U3 m eq_refl) as (m' & -> & _); by split; eauto|by rewrite U2].
      + rewrite U1; [done|]. apply cons_ne.
      + intros x m m' H1 H2. destruct (decide (x = p)) as [->|Hx].
        * destruct (U3 m H1) as (m2 & H3 & H4 & H5). rewrite H2 in H3. injection H3 as <-. split; [done|]. intros d Hd. eapply told_calm; [exact H5|]. congruence.
        * rewrite U1, H1 in H2 by done. injection H2 as <-. split; [done|]. intros. apply calm_refl. }
  destruct HU as (V1 & V2 & V3). split.
  - intros x. by rewrite V1, D1.
  - intros x m m' H1 H2 c. destruct (decide (x = n)) as [->|Hx].
    + rewrite V2 in H2. injection H2 as <-. rewrite Hn in H1. injection H1 as <-. cbn. rewrite elem_of_app. tauto.
    + destruct (proj1 (V1 x) ltac:(by rewrite H2)) as [m2 H3]. destruct (V3 x m2 m' H3 H2) as [-> _]. rewrite (proj2 (D3 x m m2 Hx H1 H3)). split; [by left|]. by intros [?|[? _]].
  - intros x m m' c H1 H2 Hc Hno Hx. destruct (proj1 (V1 x) ltac:(by rewrite H2)) as [m2 H3]. destruct (proj1 (D3 x m m2 Hx H1 H3) c Hc) as [A1 A2].
    destruct (proj2 (V3 x m2 m' H3 H2) c) as [B1 B2]; [intros ->; congruence|]. split; [congruence|by rewrite B2].
  - intros m m' H1 H2. rewrite V2 in H2. injection H2 as <-. rewrite Hn in H1. injection H1 as <-. done.
Qed.
(** An operation which a supervisor shares with its parent. *)
Lemma both_stepped t n c oc on t' e : good t -> mine oc = true -> (on = FChildInit c false \/ on = FChildStart c \/ on = FChildDone c) -> both pol sync t n c oc on = Ok (t', e) ->
  (forall x, is_Some (t' !! x) <-> is_Some (t !! x)) /\
  forall x nd nd', t !! x = Some nd -> t' !! x = Some nd' -> (forall d, ECreated d ∈ n_ev nd' <-> ECreated d ∈ n_ev nd) /\ forall d, d <> 0 -> (x = n -> d <> c) -> calm d (n_fam nd) (n_fam nd').
Proof.
  intros Ht Hm Hon H. unfold both in H.
  assert (HL : forall u o u' e', TreeModel.local pol sync u (c :: n) o = Ok (u', e') -> mine o = true -> (forall m, u !! (c :: n) = Some m -> nodeok (c :: n) m) ->
    (forall x, is_Some (u' !! x) <-> is_Some (u !! x)) /\ forall x nd nd', u !! x = Some nd -> u' !! x = Some nd' -> (forall d, ECreated d ∈ n_ev nd' <-> ECreated d ∈ n_ev nd) /\ forall d, d <> 0 -> calm d (n_fam nd) (n_fam nd')).
  { intros u o u' e' HL Ho Hk. unfold TreeModel.local in HL. destruct (u !! (c :: n)) as [m|] eqn:Hmm; cbn in HL.
    - destruct (nstep (c :: n) (n_fam m) o) as [[f1 e1]| |] eqn:Hs; cbn [rbind] in HL; [|done..]. injection HL as <- <-. split.
      + intros x. destruct (decide (x = c :: n)) as [->|]; [rewrite t_eq, Hmm; by split; eauto|by rewrite t_ne].
      + intros x nd nd' H1 H2. destruct (decide (x = c :: n)) as [->|].
        * rewrite t_eq in H2. injection H2 as <-. rewrite Hmm in H1. injection H1 as <-. cbn. split.
          -- intros d. rewrite elem_of_app. split; [|by left]. intros [?|Hd]; [done|]. by destruct (mine_none _ _ _ _ _ d Ho Hs).
          -- intros d Hd. eapply mine_calm; [by apply Hk|..]; done.
        * rewrite t_ne, H1 in H2 by done. injection H2 as <-. split; [done|]. intros. apply calm_refl.
    - injection HL as <- _. split; [done|]. intros x nd nd' -> [= <-]. split; [done|]. intros. apply calm_refl. }
  destruct (local t (c :: n) oc) as [[t1 e1]| |] eqn:H1; cbn [rbind] in H; [|done..].
  destruct (HL _ _ _ _ H1 Hm) as [A1 A2]. { intros m Hmm. by apply Ht. }
  unfold TreeModel.local in H. destruct (t1 !! n) as [nd1|] eqn:Hn; cbn in H.
  - destruct (nstep n (n_fam nd1) on) as [[f1 e2]| |] eqn:Hs; cbn [rbind] in H; [|done..]. injection H as <- <-.
    destruct (child_told n (n_fam nd1) on f1 e2) as (c1 & Hc1 & -> & Htd); [by destruct Hon as [->|[->| ->]]|done|].
    assert (c1 = c) as -> by (destruct Hon as [->|[->| ->]], Hc1 as [?|[?|[?|?]]]; congruence). split.
    + intros x. destruct (decide (x = n)) as [->|]; [rewrite t_eq; rewrite <- A1, Hn; by split; eauto|by rewrite t_ne, A1].
    + intros x nd nd' H2 H3. destruct (proj2 (A1 x) ltac:(by rewrite H2)) as [m Hmm]. destruct (A2 x nd m H2 Hmm) as [B1 B2]. destruct (decide (x = n)) as [->|].
      * rewrite t_eq in H3. injection H3 as <-. rewrite Hn in Hmm. injection Hmm as ->. cbn. rewrite app_nil_r. split; [done|]. intros d Hd Hdc.
        destruct (B2 d Hd) as [C1 C2], (told_calm _ d _ _ _ Htd (Hdc eq_refl)) as [D1 D2]. split; [congruence|by rewrite D2].
      * rewrite t_ne, Hmm in H3 by done. injection H3 as <-. split; [done|]. auto.
  - injection H as <- _. split; [done|]. intros x nd nd' H2 H3. destruct (A2 x nd nd' H2 H3). auto.
Qed.
Lemma attach_run n nd l : forall t, t !! n = Some nd -> (forall c, c ∈ l -> kids (n_fam nd) !! c = Some fresh /\ c <> 0 /\ c ∉ f_bye (n_fam nd)) ->
  exists t', run tstep t (TAttach n <$> l) = Ok (t', []) /\
    forall x, t' !! x = match t !! x with Some m => Some m | None => match x with c :: p => if decide (p = n /\ c ∈ l) then Some (Node (finit true) [] []) else None | [] => None end end.
Proof.
  induction l as [|c0 l IH]; intros t Hn Hl; cbn [fmap list_fmap run].
  - exists t. split; [done|]. intros x. destruct (t !! x); [done|]. destruct x as [|c p]; [done|]. rewrite decide_False; [done|]. by intros [_ ?%elem_of_nil].
  - destruct (Hl c0 ltac:(left)) as (Hk & Hc0 & Hb). cbn -[child_ready]. rewrite Hn.
    assert (Hrd : child_ready (n_fam nd) c0 AInitializing = Some fresh). { unfold child_ready. fold (kids (n_fam nd)). rewrite Hk, bool_decide_true; done. }
    destruct (t !! (c0 :: n)) as [m|] eqn:Hm; cbn [rbind].
    + destruct (IH t Hn) as (t' & E & Hx); [intros c Hc; apply Hl; by right|]. exists t'. rewrite E. split; [done|]. intros x. rewrite Hx. destruct (t !! x) eqn:Ex; [done|]. destruct x as [|c p]; [done|].
      destruct (decide (p = n /\ c ∈ l)) as [[? ?]|Hno]; destruct (decide (p = n /\ c ∈ c0 :: l)) as [[? Hin]|Hno2]; try done.
      * destruct Hno2. split; [done|by right].
      * subst. apply elem_of_cons in Hin as [->|?]; [congruence|]. by destruct Hno.
    + rewrite Hrd. cbn [ch_initreq fresh orb]. rewrite bool_decide_false by done. cbn [rbind].
      destruct (IH (<[c0 :: n := Node (finit true) [] []]> t)) as (t' & E & Hx); [rewrite t_ne by apply cons_ne; done|intros c Hc; apply Hl; by right|]. exists t'. rewrite E. split; [done|].
      intros x. rewrite Hx. destruct (decide (x = c0 :: n)) as [->|Hne].
      * rewrite t_eq, Hm. rewrite decide_True; [done|]. split; [done|left].
      * rewrite t_ne by done. destruct (t !! x) eqn:Ex; [done|]. destruct x as [|c p]; [done|].
        destruct (decide (p = n /\ c ∈ l)) as [[? ?]|Hno]; destruct (decide (p = n /\ c ∈ c0 :: l)) as [[? Hin]|Hno2]; try done.
        -- destruct Hno2. split; [done|by right].
        -- subst. apply elem_of_cons in Hin as [->|?]; [done|]. by destruct Hno.
Qed.
(** An actor tells its supervisor something. *)
Lemma told_run n c l : forall t nd f', t !! n = Some nd -> t !! (c :: n) = None -> Forall (fun o => (exists b, o = FChildInit c b) \/ o = FChildStart c \/ o = FChildDone c \/ o = FShutdown c) l ->
  run (nstep n) (n_fam nd) l = Ok (f', []) -> c <> 0 -> run tstep t (TOp n <$> l) = Ok (<[n := Node f' (n_ops nd ++ l) (n_ev nd)]> t, []).
Proof.
  induction l as [|o l IH]; intros t nd f' Hn Hno Hl H Hc; cbn [fmap list_fmap run].
  - cbn in H. injection H as <-. rewrite app_nil_r. f_equal. f_equal. symmetry. apply insert_id. etrans; [exact Hn|by destruct nd].
  - inversion Hl as [|? ? Ho Hl']; subst. cbn [run] in H. destruct (nstep n (n_fam nd) o) as [[f1 e1]| |] eqn:Hs; cbn [rbind] in H; [|done..].
    destruct (run (nstep n) f1 l) as [[f2 e2]| |] eqn:Hr; cbn [rbind] in H; [|done..]. injection H as <- He. apply app_eq_nil in He as [-> ->].
    assert (Hsh : shared t n o || negb (ready (n_fam nd) o) = false).
    { destruct Ho as [[b ->]|[->|[->| ->]]]; cbn; rewrite ?Hno; cbn; try (by rewrite bool_decide_false; [|intros [? ?]]); done. }
    assert (Hdc : downcall (n_fam nd) o = None) by (by destruct Ho as [[b ->]|[->|[->| ->]]]).
    cbn -[TreeModel.local downcall shared ready]. rewrite Hn, Hsh. unfold TreeModel.local. rewrite Hn, Hs. cbn [rbind]. rewrite Hdc. cbn [rbind upcalls].
    rewrite (IH _ (Node f1 (n_ops nd ++ [o]) (n_ev nd ++ [])) f2); [|apply t_eq|rewrite t_ne by (intros E; by apply (cons_ne c n)); done|done|done|done]. cbn [rbind]. cbn. rewrite <- app_assoc, app_nil_r. do 2 f_equal. apply insert_insert.
Qed.
End tree.
