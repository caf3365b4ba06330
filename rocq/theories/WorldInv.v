(** What holds in a tree of supervisors with actors: a child which is no supervisor is the
    actor of the net at its place. *)
From stdpp Require Import base list gmap countable.
From Verif Require Import Base Prog StateModel ChildMgrModel ChildMgrSpec ChildMgrProofs ChildMgrTrace ChildMgrFacts FamilyModel FamilySpec FamilySteps FamilyFold FamilyInv FamilyChild FamilyProofs
  ActorModel ActorSpec ActorSafeSpec ActorReach NetModel NetSpec NetInv NetRun NetProofs SystemModel SystemSpec SystemSteps SystemFam SystemInv
  TreeModel TreeSpec TreeSteps TreeInv TreeNode TreeProofs WorldModel WorldSpec WorldTree.
Open Scope N_scope.

Lemma whose_who n c : whose (who n c) = Some (n, c).
Proof. unfold whose, who. apply decode_encode. Qed.
Lemma who_inj n c n' c' : who n c = who n' c' -> n = n' /\ c = c'.
Proof. intros H. apply (f_equal whose) in H. rewrite !whose_who in H. by injection H. Qed.
Lemma born_in c e : c ∈ born e <-> ECreated c ∈ e.
Proof. unfold born. rewrite elem_of_list_omap. split; [|eauto]. intros (x & Hx & Hy). destruct x; try done. by injection Hy as ->. Qed.
Lemma filter_in {A} (P : A -> bool) l (x : A) : x ∈ List.filter P l <-> x ∈ l /\ P x = true.
Proof. rewrite !elem_of_list_In. apply filter_In. Qed.
Lemma pair_move f f' c ch s tr : calm c f f' -> pair f c ch s tr -> pair f' c ch s tr.
Proof. intros [_ Hb] [P1 P2 P3 P4 P5]. split; try done. by rewrite Hb. Qed.

Section inv.
Context (pol : list N -> spolicy) (sync : list N -> bool) (sup_at : list N -> N -> bool).
Context (cfg : N -> plug -> list uact) (ra : N) (unl : N -> bool) (HC : forall n, prudent_cfg ra (cfg n)).
Notation tstep := (tstep pol sync).
Notation wstep := (NetModel.nstep cfg ra unl).
Notation zstep := (zstep pol sync sup_at cfg ra unl).
Notation zrule := (zrule pol sync sup_at cfg ra unl).
Notation good := (tinv pol sync (fun _ => False)).

Record zc (x : option (list N * N)) (t : tstate) (w : net) : Prop := {
  zc_born : forall n c, is_Some (w_act w !! who n c) <-> actor_at sup_at t n c;
  zc_only : forall k, is_Some (w_act w !! k) -> exists n c, k = who n c;
  zc_sup : forall n nd c, t !! n = Some nd -> ECreated c ∈ n_ev nd -> sup_at n c = true -> is_Some (t !! (c :: n));
  zc_node : forall n c, is_Some (t !! (c :: n)) -> sup_at n c = true;
  zc_bye : forall n nd c, t !! n = Some nd -> c <> 0 -> c ∈ f_bye (n_fam nd) -> ECreated c ∈ n_ev nd;
  zc_pair : forall n nd c ch a, x <> Some (n, c) -> sup_at n c = false -> t !! n = Some nd -> kids (n_fam nd) !! c = Some ch -> w_act w !! who n c = Some a ->
    pair (n_fam nd) c ch (w_s a) (w_ev a) }.
Lemma zc_hole n c t w : sup_at n c = true \/ w_act w !! who n c = None -> zc (Some (n, c)) t w -> zc None t w.
Proof. intros Hn [Z1 Z2 Z3 Z4 Z5 Z6]. split; try done. intros m nd d ch a _ Hs Ht Hk Hw. apply (Z6 m nd d ch a); try done. intros [= -> ->]. destruct Hn; congruence. Qed.

Lemma created_kid t n nd c : good t -> t !! n = Some nd -> ECreated c ∈ n_ev nd -> c <> 0 /\ c < cm_next (f_cm (n_fam nd)) /\ is_Some (kids (n_fam nd) !! c).
Proof.
  intros Ht Hn Hc. pose proof (te_node _ _ _ _ Ht n nd Hn) as Hk. destruct (h_next _ _ (ai_h _ _ _ (fi_all _ _ (no_fin _ _ _ _ Hk))) c Hc) as [H1 H2].
  split_and!; [done|done|]. by apply (x_created _ _ _ (no_x _ _ _ _ Hk)).
Qed.
Lemma good_run ops t : good t -> guarded tstep tidy t ops -> exists t' e, run tstep t ops = Ok (t', e) /\ good t'.
Proof. intros Ht Hg. refine (run_safe_ev tstep tidy (fun t _ => good t) _ ops t [] Ht Hg). intros s _ o Hs Ho. by apply step_good. Qed.
Lemma attach_guarded n l : forall t, guarded tstep tidy t (TAttach n <$> l).
Proof. induction l as [|c l IH]; intros t; cbn [fmap list_fmap guarded]; [done|]. split; [done|]. destruct (tstep t _) as [[t1 e1]| |]; [apply IH|done..]. Qed.
Lemma told_guarded n l : Forall (fun o => match o with FChildInit _ _ | FChildStart _ | FChildDone _ | FShutdown _ => True | _ => False end) l -> forall t, guarded tstep tidy t (TOp n <$> l).
Proof.
  induction 1 as [|o l Ho _ IH]; intros t; cbn [fmap list_fmap guarded]; [done|]. split.
  - cbn. destruct (t !! n); [|done]. by destruct o.
  - destruct (tstep t (TOp n o)) as [[t1 e1]| |]; [apply IH|done..].
Qed.
Lemma told_ops n c (e : list aev) : omap (fun '(k, x) => told_op k x) ((fun x => (who n c, x)) <$> e) = TOp n <$> omap (tells c) e.
Proof. induction e as [|x e IH]; [done|]. cbn. unfold told_op at 1. rewrite whose_who. destruct (tells c x); cbn; by rewrite IH. Qed.

Lemma act_world t w n nd c ch a op w' e : good t -> zc (Some (n, c)) t w -> sup_at n c = false -> t !! n = Some nd -> kids (n_fam nd) !! c = Some ch -> c <> 0 -> w_act w !! who n c = Some a ->
  before op (n_fam nd) c ch (w_s a) (w_ev a) -> nact cfg ra unl w (who n c) a op = Ok (w', e) -> map_Forall (fun _ nd => answers_once (w_ev nd)) (w_act w') ->
  exists t', run tstep t (omap (fun '(k, x) => told_op k x) e) = Ok (t', []) /\ guarded tstep tidy t (omap (fun '(k, x) => told_op k x) e) /\ zc None t' w'.
Proof.
  intros Ht HZ Hsup Hn Hk Hc Hw Hb HS HO. unfold nact in HS. destruct (astep _ _ _ _ _) as [[s' e0]| |] eqn:Ha; cbn [rbind] in HS; [|done..]. injection HS as <- <-. cbn [w_act] in HO.
  assert (HO1 : answers_once (w_ev a ++ e0)). { apply (HO (who n c) (WNode s' (w_ev a ++ e0))). apply lookup_insert. }
  destruct (actor_step (hp n) (pol n) (sync n) cfg ra unl HC (cfg (who n c)) (unl (who n c)) op (n_fam nd) c ch (w_s a) (w_ev a) s' e0 Hc Hk Hb Ha HO1) as (f' & ch' & R & T & K & P).
  rewrite told_ops. destruct HZ as [Z1 Z2 Z3 Z4 Z5 Z6].
  assert (Hkind : Forall (fun o => (exists b, o = FChildInit c b) \/ o = FChildStart c \/ o = FChildDone c \/ o = FShutdown c) (omap (tells c) e0)).
  { apply list.Forall_forall. intros o Ho. apply elem_of_list_omap in Ho as (x & _ & Hx). unfold tells in Hx. repeat match type of Hx with (match ?t with _ => _ end) = _ => destruct t end; try done; injection Hx as <-; eauto. }
  assert (Hno : t !! (c :: n) = None). { apply eq_None_not_Some. intros Hx. apply Z4 in Hx. congruence. }
  eexists. split; [|split].
  - by apply (told_run pol sync n c _ t nd f').
  - apply told_guarded. eapply list.Forall_impl; [exact Hkind|]. by intros o [[b ->]|[->|[->| ->]]].
  - set (nd' := Node f' (n_ops nd ++ omap (tells c) e0) (n_ev nd)).
    assert (Hcr : forall m d, actor_at sup_at (<[n := nd']> t) m d <-> actor_at sup_at t m d).
    { intros m d. unfold actor_at. destruct (decide (m = n)) as [->|]; [|by rewrite t_ne]. rewrite t_eq, Hn. split; intros [? (x & [= <-] & ?)]; eauto. }
    assert (Hdm : forall m, is_Some (<[n := nd']> t !! m) <-> is_Some (t !! m)).
    { intros m. destruct (decide (m = n)) as [->|]; [rewrite t_eq, Hn; by split; eauto|by rewrite t_ne]. }
    split; cbn [w_act].
    + intros m d. rewrite Hcr, <- Z1. destruct (decide (who m d = who n c)) as [->|]; [rewrite lookup_insert, Hw; by split; eauto|by rewrite lookup_insert_ne].
    + intros k. destruct (decide (k = who n c)) as [->|]; [by eauto|]. rewrite lookup_insert_ne by done. apply Z2.
    + intros m x d Hm Hd Hs. rewrite Hdm. destruct (decide (m = n)) as [->|]; [rewrite t_eq in Hm; injection Hm as <-; by eapply Z3|]. rewrite t_ne in Hm by done. by eapply Z3.
    + intros m d. rewrite Hdm. apply Z4.
    + intros m x d Hm. destruct (decide (m = n)) as [->|]; [|rewrite t_ne in Hm by done; by apply (Z5 m)]. rewrite t_eq in Hm. injection Hm as <-. cbn. rewrite (td_bye _ _ _ _ T). by apply (Z5 n).
    + intros m x d ch1 a1 _ Hs Hm. destruct (decide (m = n)) as [->|Hmn].
      * rewrite t_eq in Hm. injection Hm as <-. cbn [n_fam nd']. destruct (decide (d = c)) as [->|Hdc].
        -- rewrite lookup_insert. intros Hk1 [= <-]. cbn. rewrite K in Hk1. by injection Hk1 as <-.
        -- rewrite lookup_insert_ne by (by intros [_ ?]%who_inj). rewrite (td_old _ _ _ _ T) by done. intros Hk1 Hw1. eapply pair_move; [by eapply told_calm|]. eapply Z6; try done. congruence.
      * rewrite t_ne in Hm by done. rewrite lookup_insert_ne by (by intros [? _]%who_inj). intros Hk1 Hw1. eapply Z6; try done. congruence.
Qed.

Lemma stepped_world t t' w n fo e nd : good t -> good t' -> zc None t w -> stepped t t' n fo e -> t !! n = Some nd ->
  exists t2 w2, births pol sync sup_at cfg ra unl (World t' w) n (born e) = Ok (World t2 w2) /\
    run tstep t' (TAttach n <$> List.filter (sup_at n) (born e)) = Ok (t2, []) /\
    run wstep w (NNew <$> (who n <$> List.filter (fun c => negb (sup_at n c)) (born e))) = Ok (w2, []) /\ good t2 /\
    (forall m x, t' !! m = Some x -> t2 !! m = Some x) /\ (e = [] -> w2 = w) /\
    zc (match handed (n_fam nd) fo with Some (c, _) => Some (n, c) | None => None end) t2 w2.
Proof.
  intros Ht Ht' HZ HD Hn. destruct HZ as [Z1 Z2 Z3 Z4 Z5 Z6]. pose proof HD as [D1 D2 D3 D4].
  destruct (proj2 (D1 n)) as [nd' Hn']; [by rewrite Hn|]. specialize (D4 nd nd' Hn Hn').
  assert (Hnew : forall c, ECreated c ∈ e -> quietly (n_fam nd) (n_fam nd') e /\ handed (n_fam nd) fo = None /\ c <> 0 /\ kids (n_fam nd') !! c = Some fresh /\ ~ ECreated c ∈ n_ev nd /\ c ∉ f_bye (n_fam nd')).
  { intros c Hc. destruct (handed (n_fam nd) fo) as [[d a]|]; [destruct D4 as (_ & _ & ->); by apply elem_of_nil in Hc|]. destruct (qt_new _ _ _ D4 c Hc) as (K & E & L).
    assert (Hc0 : c <> 0). { apply (created_kid t' n nd' c Ht' Hn'). apply (D2 n nd nd' Hn Hn'). auto. }
    assert (Hnot : ~ ECreated c ∈ n_ev nd). { intros Hx. destruct (created_kid t n nd c Ht Hn Hx) as (_ & ? & _). lia. }
    split_and!; try done. rewrite (qt_bye _ _ _ D4) by done. intros Hb. by apply Hnot, (Z5 n nd c). }
  destruct (attach_run pol sync n nd' (List.filter (sup_at n) (born e)) t' Hn') as (t2 & Ha & Hx).
  { intros c [Hc _]%filter_in. apply born_in in Hc. destruct (Hnew c Hc) as (_ & _ & ? & ? & _ & ?). done. }
  destruct (new_run cfg ra unl HC (who n <$> List.filter (fun c => negb (sup_at n c)) (born e)) w) as (w2 & Hb & _ & Hw). 
  exists t2, w2.
  assert (Hkeep : forall m x, t' !! m = Some x -> t2 !! m = Some x). { intros m x Hm. by rewrite Hx, Hm. }
  assert (Hdom : forall m, is_Some (t !! m) -> is_Some (t2 !! m)). { intros m Hm. apply D1 in Hm as [x Hm]. rewrite (Hkeep m x Hm). by eauto. }
  assert (Hold : forall m x, t2 !! m = Some x -> (t' !! m = Some x /\ is_Some (t !! m)) \/ (t' !! m = None /\ n_ev x = [] /\ f_bye (n_fam x) = ∅ /\ exists c, m = c :: n /\ sup_at n c = true)).
  { intros m x Hm. rewrite Hx in Hm. destruct (t' !! m) as [y|] eqn:E; [left; split; [done|]; apply D1; by rewrite E|]. right. destruct m as [|c p]; [done|]. destruct (decide _) as [[-> Hc]|]; [|done]. injection Hm as <-.
    apply filter_in in Hc as [_ Hc]. split_and!; [done|done|done|]. eauto. }
  assert (Hev : forall m x c, t2 !! m = Some x -> ECreated c ∈ n_ev x <-> exists y, t !! m = Some y /\ (ECreated c ∈ n_ev y \/ (m = n /\ ECreated c ∈ e))).
  { intros m x c Hm. destruct (Hold m x Hm) as [[Hm' [y Hy]]|(Hm' & -> & _)].
    - rewrite (D2 m y x Hy Hm'). split; [by eauto|]. intros (y1 & Hy1 & ?). by rewrite Hy in Hy1; injection Hy1 as <-.
    - split; [by intros ?%elem_of_nil|]. intros (y & Hy & _). assert (is_Some (t' !! m)) as [? ?] by (apply D1; by rewrite Hy). congruence. }
  assert (Hnewact : forall m d, who m d ∈ who n <$> List.filter (fun c => negb (sup_at n c)) (born e) <-> m = n /\ ECreated d ∈ e /\ sup_at n d = false).
  { intros m d. rewrite elem_of_list_fmap. split.
    - intros (c & E & Hc). apply who_inj in E as [-> ->]. apply filter_in in Hc as [Hc Hs]. apply born_in in Hc. by rewrite negb_true_iff in Hs.
    - intros (-> & Hc & Hs). exists d. split; [done|]. apply filter_in. rewrite born_in, Hs. done. }
  split_and!; try done.
  - unfold births. cbn [z_t z_w]. rewrite Ha. cbn [rbind]. rewrite Hb. done.
  - destruct (good_run _ t' Ht' (attach_guarded n (List.filter (sup_at n) (born e)) t')) as (t3 & e3 & H3 & ?). rewrite Ha in H3. by injection H3 as <- _.
  - intros ->. cbn in Hb. congruence.
  - split.
    + intros m d. rewrite Hw. unfold actor_at. split.
      * intros Hs. destruct (w_act w !! who m d) eqn:Ew.
        -- destruct (proj1 (Z1 m d)) as [S1 (y & Hy & Hc)]; [by rewrite Ew|]. split; [done|]. destruct (Hdom m) as [x Hm]; [by rewrite Hy|]. exists x. split; [done|]. apply (Hev m x d Hm). eauto.
        -- destruct (decide _) as [Hin|]; [|by destruct Hs]. apply Hnewact in Hin as (-> & Hc & Hs'). split; [done|]. destruct (Hdom n) as [x Hm]; [by rewrite Hn|]. exists x. split; [done|]. apply (Hev n x d Hm). eauto.
      * intros [Hs (x & Hm & Hc)]. apply (Hev m x d Hm) in Hc as (y & Hy & [Hc|[-> Hc]]).
        -- destruct (proj2 (Z1 m d)) as [a ->]; [|by eauto]. split; eauto.
        -- destruct (w_act w !! who n d); [by eauto|]. rewrite decide_True; [by eauto|]. by apply Hnewact.
    + intros k. rewrite Hw. destruct (w_act w !! k) eqn:Ek; [intros _; apply Z2; by rewrite Ek|]. destruct (decide _) as [Hin|]; [|by intros [? ?]]. intros _. apply elem_of_list_fmap in Hin as (c & -> & _). eauto.
    + intros m x d Hm Hd Hs. apply (Hev m x d Hm) in Hd as (y & Hy & [Hc|[-> Hc]]); [apply Hdom; by eapply Z3|]. rewrite Hx. destruct (t' !! (d :: n)); [by eauto|]. rewrite decide_True; [by eauto|].
      split; [done|]. apply filter_in. by rewrite born_in.
    + intros m d [x Hm]. destruct (Hold _ x Hm) as [[_ Hm']|(_ & _ & _ & c & [= -> ->] & ?)]; [by apply Z4|done].
    + intros m x d Hm Hd Hb1. destruct (Hold m x Hm) as [[Hm' [y Hy]]|(_ & _ & E & _)]; [|rewrite E in Hb1; set_solver].
      apply (Hev m x d Hm). exists y. split; [done|]. destruct (t !! (d :: m)) as [z|] eqn:Ez.
      { destruct (te_par _ _ _ _ Ht d m z Ez) as (y1 & Hy1 & ?). rewrite Hy in Hy1. injection Hy1 as <-. by left. }
      destruct (decide (m = n)) as [->|Hmn].
      * rewrite Hn in Hy. injection Hy as <-. rewrite Hn' in Hm'. injection Hm' as <-. left. destruct (handed (n_fam nd) fo) as [[c a]|].
        -- destruct D4 as (G & Hc & ->). destruct (decide (d = c)) as [->|Hdc]; [|apply (Z5 n nd d Hn Hd); by apply (gv_bye _ _ _ _ G)].
           destruct (kids (n_fam nd) !! c) as [ch|] eqn:Hkc; [|by destruct (gv_byen _ _ _ _ G Hkc)]. apply (x_known _ _ _ (no_x _ _ _ _ (te_node _ _ _ _ Ht n nd Hn))); [|done]. by exists ch.
        -- apply (Z5 n nd d Hn Hd). by apply (qt_bye _ _ _ D4).
      * left. apply (Z5 m y d Hy Hd). by apply (D3 m y x d Hy Hm' Hd Ez Hmn).
    + intros m x d ch a Hhole Hs Hm Hk Hwa.
      assert (Hno : t !! (d :: m) = None). { apply eq_None_not_Some. intros Hz. apply Z4 in Hz. congruence. }
      rewrite Hw in Hwa. destruct (w_act w !! who m d) as [a0|] eqn:Ew.
      * injection Hwa as ->. destruct (proj1 (Z1 m d)) as [_ (y & Hy & Hc)]; [by rewrite Ew|]. destruct (created_kid t m y d Ht Hy Hc) as (Hd0 & Hlt & _).
        destruct (Hold m x Hm) as [[Hm' _]|(Hm' & _)]; [|exfalso; destruct (proj2 (D1 m)) as [? ?]; [by rewrite Hy|congruence]].
        assert (Hcalm : calm d (n_fam y) (n_fam x)).
        { destruct (decide (m = n)) as [->|Hmn]; [|by apply (D3 m y x d)]. rewrite Hn in Hy. injection Hy as <-. rewrite Hn' in Hm'. injection Hm' as <-. destruct (handed (n_fam nd) fo) as [[c b]|].
          - destruct D4 as (G & _ & _). assert (d <> c) by congruence. split; [by apply G|by apply (gv_bye _ _ _ _ G)].
          - split; [apply D4; intros Hin; destruct (qt_new _ _ _ D4 d Hin) as (_ & ? & _); lia|by apply D4]. }
        eapply pair_move; [exact Hcalm|]. eapply Z6; try done. by rewrite <- (ca_kid _ _ _ Hcalm).
      * destruct (decide _) as [Hin|]; [|done]. injection Hwa as <-. apply Hnewact in Hin as (-> & Hc & _). rewrite (Hkeep n nd' Hn') in Hm. injection Hm as <-.
        destruct (Hnew d Hc) as (_ & _ & Hd0 & K & _ & Hby). rewrite K in Hk. injection Hk as <-. split; cbn; try done. by right.
Qed.

Record zinv (z : world) (ev : list (N * aev)) : Prop := {
  zi_t : exists tops tev, guarded tstep tidy tinit tops /\ run tstep tinit tops = Ok (z_t z, tev);
  zi_w : exists nops, guarded wstep (nrule cfg ra unl) ninit nops /\ run wstep ninit nops = Ok (z_w z, ev);
  zi_c : zc None (z_t z) (z_w z) }.
Lemma zinv_init : zinv zinit [].
Proof.
  split; [by exists [], []|by exists []|]. cbn. split.
  - intros n c. cbn. rewrite lookup_empty. split; [by intros [? ?]|]. intros [_ (nd & Hn & Hc)]. rewrite init_at in Hn. destruct n; [|done]. injection Hn as <-. by apply elem_of_nil in Hc.
  - intros k. cbn. rewrite lookup_empty. by intros [? ?].
  - intros n nd c Hn Hc. rewrite init_at in Hn. destruct n; [|done]. injection Hn as <-. by apply elem_of_nil in Hc.
  - intros n c [? H]. by rewrite init_at in H.
  - intros n nd c Hn Hc. rewrite init_at in Hn. destruct n; [|done]. injection Hn as <-. cbn. set_solver.
  - intros n nd c ch a _ _ _ _. cbn. by rewrite lookup_empty.
Qed.
Lemma told_kinds e t : guarded tstep tidy t (omap (fun '(k, x) => told_op k x) (e : list (N * aev))).
Proof.
  assert (Hf : Forall (fun o => match o with TOp _ (FChildInit _ _ | FChildStart _ | FChildDone _ | FShutdown _) => True | _ => False end) (omap (fun '(k, x) => told_op k x) e)).
  { apply list.Forall_forall. intros o Ho. apply elem_of_list_omap in Ho as ([k x] & _ & Hx). unfold told_op in Hx. destruct (whose k) as [[n c]|]; [|done]. destruct (tells c x) as [fo|] eqn:Et; [|done]. injection Hx as <-.
    unfold tells in Et. repeat match type of Et with (match ?t with _ => _ end) = _ => destruct t end; try done; by injection Et as <-. }
  revert t. induction Hf as [|o l Ho _ IH]; intros t; cbn [guarded]; [done|]. split.
  - destruct o as [n fo| | | |]; try done. cbn. destruct (t !! n); [|done]. by destruct fo.
  - destruct (tstep t o) as [[t1 e1]| |]; [apply IH|done..].
Qed.
Lemma zact_total t w0 o w e : good t -> wstep w0 o = Ok (w, e) -> exists t', zact pol sync cfg ra unl (World t w0) o = Ok (World t' w, e).
Proof.
  intros Ht H. unfold zact. cbn [z_t z_w]. rewrite H. cbn [rbind]. destruct (good_run _ t Ht (told_kinds e t)) as (t' & e' & -> & _). cbn [rbind]. by eexists.
Qed.
(** The actors move: first the net, then the tree. *)
Lemma zact_inv t w ev o tops tev nops w' e : guarded tstep tidy tinit tops -> run tstep tinit tops = Ok (t, tev) ->
  guarded wstep (nrule cfg ra unl) ninit nops -> run wstep ninit nops = Ok (w, ev) -> nrule cfg ra unl w o -> wstep w o = Ok (w', e) ->
  (exists t', run tstep t (omap (fun '(k, x) => told_op k x) e) = Ok (t', []) /\ guarded tstep tidy t (omap (fun '(k, x) => told_op k x) e) /\ zc None t' w') ->
  exists z', zact pol sync cfg ra unl (World t w) o = Ok (z', e) /\ zinv z' (ev ++ e).
Proof.
  intros Htg Htr Hng Hnr Hrule Hs (t' & Hr & Hg & Hz). unfold zact. cbn [z_t z_w]. rewrite Hs. cbn [rbind]. rewrite Hr. cbn [rbind]. eexists. split; [done|]. split; cbn [z_t z_w]; [| |done].
  - exists (tops ++ omap (fun '(k, x) => told_op k x) e), (tev ++ []). split; [by eapply guarded_snoc|]. rewrite run_app, Htr. cbn [rbind]. rewrite Hr. done.
  - exists (nops ++ [o]). split.
    + eapply guarded_snoc; [done|done|]. cbn [guarded]. split; [done|]. by rewrite Hs.
    + rewrite run_app, Hnr. cbn [rbind run]. rewrite Hs. cbn [rbind]. by rewrite app_nil_r.
Qed.
Lemma actor_free t w k a op w' e : good t -> zc None t w -> w_act w !! k = Some a -> (match op with OInitReq | OShutReq | OUnsubscribed => False | _ => True end) ->
  nact cfg ra unl w k a op = Ok (w', e) -> map_Forall (fun _ nd => answers_once (w_ev nd)) (w_act w') ->
  exists t', run tstep t (omap (fun '(k, x) => told_op k x) e) = Ok (t', []) /\ guarded tstep tidy t (omap (fun '(k, x) => told_op k x) e) /\ zc None t' w'.
Proof.
  intros Ht HZ Hw Ho HS HO. destruct (zc_only _ _ _ HZ k) as (n & c & ->); [by rewrite Hw|]. destruct (proj1 (zc_born _ _ _ HZ n c)) as [Hs (nd & Hn & Hcr)]; [by rewrite Hw|].
  destruct (created_kid t n nd c Ht Hn Hcr) as (Hc & _ & ch & Hk). destruct (zc_pair _ _ _ HZ n nd c ch a ltac:(done) Hs Hn Hk Hw) as [P1 P2 P3 P4 P5].
  eapply (act_world t w n nd c ch a op); try done.
  - destruct HZ as [Z1 Z2 Z3 Z4 Z5 Z6]. split; try done. intros m x d ch1 a1 _. by apply Z6.
  - split; try done.
    + by destruct op.
    + rewrite P2. split; [by left|]. by intros [?| ->].
    + by intros [?| ->]; [auto|].
Qed.

Lemma zstep_inv z ev o : zinv z ev -> zrule z o -> exists z' e, zstep z o = Ok (z', e) /\ zinv z' (ev ++ e).
Proof.
  intros HI [Hrule HO]. pose proof HI as [HT HW HZ]. destruct HT as (tops & tev & Htg & Htr), HW as (nops & Hng & Hnr). destruct z as [t w]. cbn [z_t z_w] in *.
  pose proof (tree_good pol sync tops t tev Htg Htr) as Ht. destruct (net_safe cfg ra unl HC nops Hng) as (w1 & ev1 & Hnr1 & Hwi). rewrite Hnr in Hnr1. injection Hnr1 as <- _.
  assert (Hskip : exists z' e, Ok (World t w, []) = Ok (z', e) /\ zinv z' (ev ++ e)). { exists (World t w), []. by rewrite app_nil_r. }
  destruct o as [o|o].
  - destruct Hrule as [Hti Hh].
    (* operations shared by two supervisors *)
    assert (HB : forall n c oc on, mine oc = true -> (on = FChildInit c false \/ on = FChildStart c \/ on = FChildDone c) -> is_Some (t !! (c :: n)) -> forall t' e, tstep t o = Ok (t', e) -> both pol sync t n c oc on = Ok (t', e) ->
      tidy t o -> exists z' e', Ok (World t' w, [] : list (N * aev)) = Ok (z', e') /\ zinv z' (ev ++ e')).
    { intros n c oc on Hm Hon Hcn t' e Hs Hb Hti'. eexists _, _. split; [done|]. rewrite app_nil_r. destruct (both_stepped pol sync t n c oc on t' e Ht Hm Hon Hb) as [B1 B2]. destruct HZ as [Z1 Z2 Z3 Z4 Z5 Z6].
      pose proof (Z4 n c Hcn) as Hsup.
      assert (Hget : forall m x, t' !! m = Some x -> exists y, t !! m = Some y /\ (forall d, ECreated d ∈ n_ev x <-> ECreated d ∈ n_ev y) /\ forall d, d <> 0 -> (m = n -> d <> c) -> calm d (n_fam y) (n_fam x)).
      { intros m x Hm1. destruct (proj1 (B1 m)) as [y Hy]; [by rewrite Hm1|]. exists y. split; [done|]. by apply B2. }
      split; cbn [z_t z_w]; [|by eauto|].
      - exists (tops ++ [o]), (tev ++ (e ++ [])). split; [eapply guarded_snoc; [done|done|]; cbn [guarded]; split; [done|by rewrite Hs]|]. rewrite run_app, Htr. cbn [rbind run]. rewrite Hs. done.
      - split; try done.
        + intros m d. rewrite Z1. unfold actor_at. split; intros [H1 (x & H2 & H3)]; split; try done.
          * destruct (proj2 (B1 m)) as [y Hy]; [by rewrite H2|]. exists y. split; [done|]. by apply (proj1 (B2 m x y H2 Hy)).
          * destruct (Hget m x H2) as (y & Hy & H4 & _). exists y. split; [done|]. by apply H4.
        + intros m x d Hm1 Hd Hs1. destruct (Hget m x Hm1) as (y & Hy & H4 & _). rewrite B1. eapply Z3; [done| |done]. by apply H4.
        + intros m d. rewrite B1. apply Z4.
        + intros m x d Hm1 Hd Hb1. destruct (Hget m x Hm1) as (y & Hy & H4 & H5). rewrite H4. destruct (decide (m = n /\ d = c)) as [[-> ->]|Hne].
          * destruct Hcn as [q Hq]. destruct (te_par _ _ _ _ Ht c n q Hq) as (y1 & Hy1 & ?). rewrite Hy in Hy1. by injection Hy1 as <-.
          * apply (Z5 m y d Hy Hd). apply (H5 d Hd); [|done]. intros -> ->. by apply Hne.
        + intros m x d ch a _ Hs1 Hm1 Hk Hw. destruct (Hget m x Hm1) as (y & Hy & H4 & H5). destruct (proj1 (Z1 m d)) as [_ (y1 & Hy1 & Hcr)]; [by rewrite Hw|]. rewrite Hy in Hy1. injection Hy1 as <-.
          destruct (created_kid t m y d Ht Hy Hcr) as (Hd & _). assert (Hca : calm d (n_fam y) (n_fam x)) by (apply H5; [done|congruence]). eapply pair_move; [done|]. eapply Z6; try done. by rewrite <- (ca_kid _ _ _ Hca). }
    destruct o as [n fo|n c|n c|n c|n c]; cbn [WorldModel.zstep] in HO |- *.
    + cbn [z_t z_w] in *. destruct (t !! n) as [nd|] eqn:Hn; [|done]. destruct (by_child fo) eqn:Hbc; [done|].
      destruct (step_good pol sync t (TOp n fo) Ht Hti) as (t' & ce & Hs & Ht'). rewrite Hs in HO |- *. cbn [rbind] in HO |- *.
      pose proof (op_stepped pol sync t n fo t' ce Ht Hbc ltac:(by rewrite Hn) Hs) as HD.
      destruct (stepped_world t t' w n fo ce nd Ht Ht' HZ HD Hn) as (t2 & w2 & Hbi & Hat & Hne & Ht2 & Hkeep & Hw2 & HZ2). rewrite Hbi in HO |- *. cbn [rbind] in HO |- *.
      assert (HT2 : exists tops tev, guarded tstep tidy tinit tops /\ run tstep tinit tops = Ok (t2, tev)).
      { exists (tops ++ TOp n fo :: (TAttach n <$> List.filter (sup_at n) (born ce))), (tev ++ (ce ++ [])). split.
        - eapply guarded_snoc; [done|done|]. cbn [guarded]. split; [done|]. rewrite Hs. apply attach_guarded.
        - rewrite run_app, Htr. cbn [rbind run]. rewrite Hs. cbn [rbind]. rewrite Hat. done. }
      assert (HW2 : guarded wstep (nrule cfg ra unl) ninit (nops ++ (NNew <$> (who n <$> List.filter (fun c => negb (sup_at n c)) (born ce)))) /\
        run wstep ninit (nops ++ (NNew <$> (who n <$> List.filter (fun c => negb (sup_at n c)) (born ce)))) = Ok (w2, ev)).
      { split; [eapply guarded_snoc; [done|done|]; apply new_guarded|]. rewrite run_app, Hnr. cbn [rbind]. rewrite Hne. cbn [rbind]. by rewrite app_nil_r. }
      assert (Hdone : zc None t2 w2 -> exists z' e, Ok (World t2 w2, [] : list (N * aev)) = Ok (z', e) /\ zinv z' (ev ++ e)).
      { intros Hz. eexists _, _. split; [done|]. rewrite app_nil_r. split; cbn [z_t z_w]; eauto. }
      destruct (handed (n_fam nd) fo) as [[c a]|] eqn:Hha; [|by apply Hdone].
      destruct (proj2 (sd_dom _ _ _ _ _ HD n)) as [nd' Hn']; [by rewrite Hn|]. pose proof (sd_at _ _ _ _ _ HD nd nd' Hn Hn') as Hg. rewrite Hha in Hg. destruct Hg as (Hg & Hc & ->). specialize (Hw2 eq_refl). subst w2.
      destruct (sup_at n c) eqn:Hsup; [apply Hdone; eapply zc_hole; [|done]; by left|].
      destruct HT2 as (tops2 & tev2 & Htg2 & Htr2).
      destruct (nstep_inv cfg ra unl HC _ _ Hwi Hh) as (w3 & e3 & Hn3 & _). destruct (zact_total t2 w (NLocal (who n c) a) w3 e3 Ht2 Hn3) as (t0 & Hz0). rewrite Hz0 in HO.
      destruct (zact_inv t2 w ev (NLocal (who n c) a) tops2 tev2 nops w3 e3) as (z' & Hz' & Hi); try done; [|by eauto].
      cbn [NetModel.nstep] in Hn3. destruct (w_act w !! who n c) as [nd0|] eqn:Hwc.
      * destruct (proj1 (zc_born _ _ _ HZ n c)) as [_ (nd1 & Hn1 & Hcr)]; [by rewrite Hwc|]. rewrite Hn in Hn1. injection Hn1 as <-. destruct (created_kid t n nd c Ht Hn Hcr) as (_ & _ & ch & Hk).
        destruct Hg as [G1 G2 G3 G4 G5 G6 G7 G8]. rewrite Hk in G4. destruct G4 as (ch' & Hk' & Hgot). destruct (zc_pair _ _ _ HZ n nd c ch nd0 ltac:(done) Hsup Hn Hk Hwc) as [P1 P2 P3 P4 P5].
        assert (Hpt : x_pts (w_s nd0) = true). { destruct (x_pts (w_s nd0)) eqn:E; [done|]. by destruct G2; apply P2. }
        assert (Hpl : plain (w_s nd0) a = true) by (by destruct G1 as [->|[->| ->]]). rewrite Hpl in Hn3.
        eapply (act_world t2 w n nd' c ch' nd0 a); try done; [by apply Hkeep|]. split; try done.
        -- destruct G1 as [->|[->| ->]]; cbn in Hgot |- *; [by rewrite (proj1 Hgot)|by destruct Hgot|by subst].
        -- rewrite (G6 ltac:(by rewrite Hk)), Hpt. split; [by right|]. by intros [?|?].
        -- destruct G1 as [->|[->| ->]]; cbn in Hgot.
           ++ intros _. left. apply Hgot.
           ++ rewrite (proj2 Hgot). by intros [?|?]; [auto|].
           ++ subst. by intros [?|?]; [auto|].
      * injection Hn3 as <- <-. exists t2. split_and!; [done|done|]. eapply zc_hole; [|done]. by right.
    + done.
    + cbn [z_t z_w] in *. destruct (step_good pol sync t (TInited n c) Ht Hti) as (t' & ce & Hs & Ht'). pose proof Hs as Hs0. rewrite Hs. cbn [rbind]. cbn -[both] in Hs. destruct (t !! (c :: n)) as [m|] eqn:Hm; [|by injection Hs as <- <-].
      destruct (ChildMgrModel.handle_init _); [|by injection Hs as <- <-]. apply (HB n c FInitialized (FChildInit c false)) with ce; [done|by left|by rewrite Hm|done|done|done].
    + cbn [z_t z_w] in *. destruct (step_good pol sync t (TStarted n c) Ht Hti) as (t' & ce & Hs & Ht'). pose proof Hs as Hs0. rewrite Hs. cbn [rbind]. cbn -[both] in Hs. destruct (t !! (c :: n)) as [m|] eqn:Hm; [|by injection Hs as <- <-].
      apply (HB n c FStarted (FChildStart c)) with ce; [done|by right; left|by rewrite Hm|done|done|done].
    + cbn [z_t z_w] in *. destruct (step_good pol sync t (TDone n c) Ht Hti) as (t' & ce & Hs & Ht'). pose proof Hs as Hs0. rewrite Hs. cbn [rbind]. cbn -[both] in Hs. destruct (t !! n) as [nd|]; [|by injection Hs as <- <-]. destruct (t !! (c :: n)) as [m|] eqn:Hm; [|by injection Hs as <- <-].
      destruct (decide _); [|by injection Hs as <- <-]. apply (HB n c FShutDown (FChildDone c)) with ce; [done|by right; right|by rewrite Hm|done|done|done].
  - cbn [WorldModel.zstep] in HO |- *. destruct (by_sup o) eqn:Hbs; [done|]. cbn [z_t z_w] in *. destruct (nstep_inv cfg ra unl HC _ _ Hwi Hrule) as (w2 & e2 & Hn2 & _).
    assert (HO2 : map_Forall (fun _ nd => answers_once (w_ev nd)) (w_act w2)). { destruct (zact_total t w o w2 e2 Ht Hn2) as (t0 & Hz0). by rewrite Hz0 in HO. }
    destruct (zact_inv t w ev o tops tev nops w2 e2) as (z' & Hz' & Hi); try done; [|by eauto].
    destruct o as [k|k o|p k]; [done| |]; cbn [NetModel.nstep] in Hn2.
    + destruct (w_act w !! k) as [a|] eqn:Hwk; [|injection Hn2 as <- <-; by exists t]. destruct (plain (w_s a) o); [|injection Hn2 as <- <-; by exists t]. eapply (actor_free t w k a o); try done. by destruct o.
    + assert (HTk : forall m l, zc None t (take_msg w p k m l)). { intros m l. destruct HZ as [Z1 Z2 Z3 Z4 Z5 Z6]. by split. }
      destruct (w_ch w p k) as [|m l]; [injection Hn2 as <- <-; by exists t|]. destruct (w_act w !! k) as [a|] eqn:Hwk; [|injection Hn2 as <- <-; exists t; split_and!; [done|done|apply HTk]].
      eapply (actor_free t (take_msg w p k m l) k a (receive p m)); [done|apply HTk|done|by destruct m|done|done].
Qed.
End inv.
