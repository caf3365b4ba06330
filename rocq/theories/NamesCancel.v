(** Promises which are given up leave the registry. *)
From stdpp Require Import base list gmap strings.
From Verif Require Import Base Prog RegistryModel RegistrySpec RegistryProofs ActorModel ActorSpec ActorMoves ActorReach ActorSteps ActorProofs NetModel NetSpec NetLocal NetViews NetInv NamesModel NamesSpec NamesLocal NamesEvents NamesFlight NamesViews NamesInv NamesAct NamesProofs.
Open Scope N_scope.

(** ** Numbers of requests are not used twice *)
Lemma reach_once D s ev : reach D s ev -> NoDup (reqs ev).*1.
Proof.
  apply (reach_inv D (fun s ev => NoDup (reqs ev).*1)); [constructor|]. clear s ev. intros s ev e s' HR H Hm.
  enough (He : reqs e = [] \/ exists q, reqs e = [(x_next s, q)]).
  { rewrite reqs_app, fmap_app. destruct He as [->|(q & ->)]; [by rewrite app_nil_r|]. apply NoDup_app. split_and!; [done| |apply NoDup_singleton].
    intros id (p & -> & Hp)%elem_of_list_fmap Hi%elem_of_list_singleton. destruct p as [id q']. destruct (reach_reqs _ _ _ HR) as (R1 & _). apply R1 in Hp. cbn in Hi. lia. }
  destruct Hm; try (left; apply reqs_none; repeat first [apply Forall_app_2|case_match|constructor]; done); try (right; eexists; reflexivity).
  - destruct d; right; by eexists.
  - left. apply reqs_none, Forall_forall. intros x Hx. by apply H2 in Hx as (n & -> & _).
Qed.
Lemma once_app e1 e2 x1 x2 id q1 q2 : NoDup (reqs (e1 ++ e2)).*1 -> x1 ∈ e1 -> x2 ∈ e2 -> req_ev x1 = Some (id, q1) -> req_ev x2 = Some (id, q2) -> False.
Proof.
  rewrite reqs_app, fmap_app. intros (_ & H & _)%NoDup_app H1 H2 E1 E2. apply (H id); apply elem_of_list_fmap; [exists (id, q1)|exists (id, q2)]; (split; [done|]; apply elem_of_list_omap; eauto).
Qed.

Section cancel.
Context (nm : N -> string) (cfg : N -> plug -> list uact) (ra : N) (unl : N -> bool).
Context {HI : Inj eq eq nm}.
Notation S y n := (sto (y_net y) n).
Notation T y n := (trace (y_net y) n).
Notation ystep := (ystep nm cfg ra unl).
Notation YI := (YI nm ra).
Notation asked := (asked nm).

Definition is_prom (id : N) (x : rop) : bool := match x with Promise d => bool_decide (dr_id d = id) | _ => false end.
Definition proms (id : N) (l : list rop) : nat := length (List.filter (is_prom id) l).
Definition is_mine (c id : N) (d : disc_req) : bool := bool_decide (dr_id d = id) && bool_decide (dr_origin d = c).
Definition mine (c id : N) (l : list disc_req) : nat := length (List.filter (is_mine c id) l).
Lemma proms_app id l1 l2 : proms id (l1 ++ l2) = (proms id l1 + proms id l2)%nat.
Proof. unfold proms. by rewrite List.filter_app, app_length. Qed.
Lemma mine_app c id l1 l2 : mine c id (l1 ++ l2) = (mine c id l1 + mine c id l2)%nat.
Proof. unfold mine. by rewrite List.filter_app, app_length. Qed.
Lemma mine_pos c id l d : d ∈ l -> dr_id d = id -> dr_origin d = c -> (0 < mine c id l)%nat.
Proof.
  intros (l1 & l2 & ->)%elem_of_list_split <- <-. rewrite mine_app. unfold mine at 2. cbn. unfold is_mine at 1. rewrite !bool_decide_true by done. cbn. lia.
Qed.
Lemma mine_sub c id P `{forall d : disc_req, Decision (P d)} l : (mine c id (filter P l) <= mine c id l)%nat.
Proof.
  induction l as [|d l IH]; [done|]. rewrite filter_cons. case_decide; unfold mine in *; cbn; destruct (is_mine c id d); cbn; lia.
Qed.
Lemma proms_pos id l : (0 < proms id l)%nat <-> exists d, Promise d ∈ l /\ dr_id d = id.
Proof.
  unfold proms. split.
  - destruct (List.filter (is_prom id) l) as [|x k] eqn:E; cbn; [lia|]. intros _. assert (Hf : x ∈ List.filter (is_prom id) l) by (rewrite E; by left).
    apply elem_of_list_In, filter_In in Hf as [Hx Hb]. apply elem_of_list_In in Hx. destruct x; try done. cbn in Hb. apply bool_decide_eq_true in Hb. eauto.
  - intros (d & Hd & Hn). assert (Hf : Promise d ∈ List.filter (is_prom id) l) by (apply elem_of_list_In, filter_In; split; [by apply elem_of_list_In|]; cbn; by rewrite bool_decide_true).
    destruct (List.filter (is_prom id) l); [by apply elem_of_nil in Hf|cbn; lia].
Qed.
Lemma asked_app n pid e1 e2 : asked n pid (e1 ++ e2) = asked n pid e1 ++ asked n (foldl keeps pid e1) e2.
Proof. revert pid. induction e1 as [|x e1 IH]; intros pid; [done|]. cbn. rewrite IH. by rewrite <- (assoc_L (++)). Qed.
Lemma asked_proms n pid e id : NoDup (reqs e).*1 -> (proms id (asked n pid e) <= 1)%nat.
Proof.
  revert pid. induction e as [|x e IH]; intros pid HN; [cbn; lia|]. cbn [NamesViews.asked]. rewrite proms_app.
  assert (HN' : NoDup (reqs e).*1) by (unfold reqs in HN; cbn in HN; destruct (req_ev x) as [[? ?]|]; [by apply NoDup_cons in HN as [_ ?]|done]).
  specialize (IH (keeps pid x) HN').
  destruct (decide (proms id match asks nm n pid x with Some m => [m] | None => [] end = 0%nat)) as [->|Hp]; [lia|].
  assert (Hx : exists m, x = EvPromise m id).
  { destruct (asks nm n pid x) as [r|] eqn:E; [|done]. destruct x; cbn in E; try done; injection E as <-; try done. unfold proms in Hp. cbn in Hp. case_bool_decide as Hb; [|done]. rewrite <- Hb. eauto. }
  destruct Hx as (m & ->). assert (H0 : proms id (asked n (keeps pid (EvPromise m id)) e) = 0%nat).
  { destruct (proms id _) eqn:E; [done|]. assert (Hz : (0 < proms id (asked n (keeps pid (EvPromise m id)) e))%nat) by lia. apply proms_pos in Hz as (d & (z & pid' & Hz & Ha)%asked_in & <-).
    destruct z; try done. cbn in Ha. injection Ha as <-. cbn in *. exfalso. eapply (once_app [EvPromise m id] e); [exact HN|by left|exact Hz|done|done]. }
  rewrite H0. unfold proms. cbn. case_bool_decide; cbn; lia.
Qed.
Lemma keeps_none m pid e : (forall i, EvPromise m i ∉ e) -> foldl keeps pid e m = pid m.
Proof.
  revert pid. induction e as [|x e IH]; intros pid He; [done|]. cbn. rewrite IH; [|intros i Hi; apply (He i); by right].
  destruct x; try done. cbn. unfold upd. rewrite bool_decide_false; [done|]. intros ->. apply (He id). by left.
Qed.

(** ** The invariant *)
Definition followed (c id : N) (l : list rop) : Prop := forall l1 d l2, l = l1 ++ Promise d :: l2 -> dr_id d = id -> Cancel id c ∈ l2.
Record YC (y : names) : Prop := Yc {
  k_pid : forall c m id t1 t2, T y c = t1 ++ EvPromise m id :: t2 -> (forall i, EvPromise m i ∉ t2) -> y_pid y c m = id;
  k_once : forall c id, (proms id (y_to y c) + mine c id (promises (y_reg y)) <= 1)%nat;
  k_to : forall c id, withdrawn (T y c) id -> followed c id (y_to y c);
  k_reg : live ra y -> forall c id d, withdrawn (T y c) id -> d ∈ promises (y_reg y) -> dr_id d = id -> dr_origin d = c -> Cancel id c ∈ y_to y c
}.
Lemma followed_tail c id k l : followed c id (k ++ l) -> followed c id l.
Proof. intros H l1 d l2 -> Hd. apply (H (k ++ l1) d l2); [by rewrite <- (assoc_L (++))|done]. Qed.

Lemma idle_cancel y y' : YC y -> idle y y' -> (forall k, y_to y' k = y_to y k) \/ ~ live ra y /\ (forall k, exists l, y_to y k = l ++ y_to y' k) -> YC y'.
Proof.
  intros [K1 K2 K3 K4] [Es Et Er Ep] Ht. split.
  - intros c m id t1 t2. rewrite Et, Ep. apply K1.
  - intros c id. rewrite Er. specialize (K2 c id). destruct Ht as [->|[_ Ht]]; [done|]. destruct (Ht c) as [l E]. rewrite E, proms_app in K2. lia.
  - intros c id. rewrite Et. intros H%K3. destruct Ht as [->|[_ Ht]]; [done|]. destruct (Ht c) as [l E]. rewrite E in H. by apply followed_tail in H.
  - intros HL c id d. rewrite Et, Er. destruct Ht as [Ht|[Hn _]]; [rewrite Ht; apply K4|]; [|destruct Hn]; by unfold live in *; rewrite Es in HL.
Qed.
Lemma serve_cancel y ev p x l y' r out : YI y ev -> YC y -> y_net y' = y_net y -> serves ra (y_net y) = true -> y_to y p = x :: l -> rstep (y_reg y) x = Ok (r, out) -> y_reg y' = r ->
  (forall k, y_to y' k = if decide (k = p) then l else y_to y k) -> y_pid y' = y_pid y -> YC y'.
Proof.
  intros HY [K1 K2 K3 K4] En Hsv Ht Hr Er Et Ep. pose proof (i_rinv _ _ _ _ HY) as HRI.
  destruct (rstep_refines (y_reg y) (owner y) x HRI (fun k => eq_refl)) as (r1 & b' & out1 & Hr1 & HRI' & Hb' & Hspec & _).
  rewrite Hr in Hr1. injection Hr1 as <- <-. subst r.
  pose proof (i_to _ _ _ _ HY p x ltac:(rewrite Ht; by left)) as Hx. apply (serves_live _ _ (i_ra _ _ _ _ HY)) in Hsv as HL.
  assert (Hprom : forall d, d ∈ promises (y_reg y') -> d ∈ promises (y_reg y) \/ x = Promise d).
  { intros d. inversion Hspec; subst; try (by left).
    - intros [_ ?]%elem_of_list_filter. by left.
    - rewrite elem_of_app, elem_of_list_singleton. intros [?| ->]; [by left|by right].
    - match goal with E : promises (y_reg y) = _ |- _ => rewrite E end. set_solver. }
  assert (Hcnt : forall c id, (proms id (y_to y' c) + mine c id (promises (y_reg y')) <= proms id (y_to y c) + mine c id (promises (y_reg y)))%nat).
  { intros c id. assert (Hq : proms id (y_to y c) = (proms id (y_to y' c) + if decide (c = p) then proms id [x] else 0)%nat).
    { rewrite Et. case_decide; [subst|lia]. rewrite Ht. change (x :: l) with ([x] ++ l). rewrite proms_app. lia. }
    rewrite Hq. enough (mine c id (promises (y_reg y')) <= mine c id (promises (y_reg y)) + if decide (c = p) then proms id [x] else 0)%nat by lia.
    inversion Hspec; subst; try lia.
    - etrans; [apply mine_sub|lia].
    - rewrite mine_app. cbn in Hx. destruct Hx as (m & i & _ & ->). unfold mine at 2. cbn. unfold is_mine, proms. cbn.
      case_bool_decide; cbn; [|lia]. case_bool_decide; cbn; [|lia]. subst c. rewrite decide_True by done. lia.
    - match goal with E : promises (y_reg y) = _ |- _ => rewrite E end. rewrite !mine_app. change (p0 :: l2) with ([p0] ++ l2). rewrite mine_app. lia. }
  split.
  - intros c m id t1 t2. rewrite En, Ep. apply K1.
  - intros c id. specialize (Hcnt c id). specialize (K2 c id). lia.
  - intros c id. rewrite En. intros H%K3. rewrite Et. case_decide; [subst c|done]. rewrite Ht in H. by apply (followed_tail p id [x]).
  - intros _ c id d. rewrite En. intros Hw Hd Hid Hor. destruct (Hprom d Hd) as [Hd'| ->].
    + pose proof (K4 HL c id d Hw Hd' Hid Hor) as Hc. rewrite Et. case_decide as Hcp; [|done]. rewrite Hcp in *. rewrite Ht in Hc. apply elem_of_cons in Hc as [Hc|Hc]; [|done]. subst x. exfalso.
      pose proof (K2 p id) as Hone. clear Hcnt Hprom. inversion Hspec; subst.
      * match goal with E : forall _, _ ∈ promises (y_reg y) -> ~ _ |- _ => by apply (E d) end.
      * match goal with E : promises (y_reg y) = _ |- _ => rewrite E in Hone end. rewrite mine_app in Hone. change (p0 :: l2) with ([p0] ++ l2) in Hone. rewrite mine_app in Hone.
        assert (HA1 : (0 < mine (dr_origin d) (dr_id d) [p0])%nat) by (apply (mine_pos _ _ _ p0); [by left|done|done]).
        match goal with E : _ = promises (y_reg y') |- _ => rewrite <- E in Hd end.
        assert (HA2 : (0 < mine (dr_origin d) (dr_id d) (l1 ++ l2))%nat) by (by apply (mine_pos _ _ _ d)). rewrite mine_app in HA2. lia.
    + cbn in Hx. destruct Hx as (m & i & _ & ->). cbn in *. subst c i. rewrite Et, decide_True by done. apply (K3 p id Hw [] (DiscReq id p p (nm m)) l); [by rewrite Ht|done].
Qed.

Lemma act_cancel y ev n o r0 y' s' e : YI y ev -> YC y -> acts nm cfg ra unl y n o r0 y' s' e -> fl (y_net y') -> YC y'.
Proof.
  intros HY [K1 K2 K3 K4] HA HF. destruct HA as [Hin Hs Es Et Er Eto Hfr Hop Ep].
  pose proof (reach_once _ _ _ (fl_reach _ HF n)) as HO. rewrite Et, decide_True in HO by done.
  assert (HO2 : NoDup (reqs e).*1) by (rewrite reqs_app, fmap_app in HO; by apply NoDup_app in HO as (_ & _ & ?)).
  assert (Hlive : live ra y' -> live ra y).
  { unfold live. rewrite Es. intros H Hd. apply H. case_decide; [subst n|done]. by destruct (dead_step _ _ _ _ _ _ _ Hd Hs) as [-> _]. }
  (* a promise which is old is not asked for again *)
  assert (Hold : forall m id d, EvPromise m id ∈ T y n -> dr_id d = id -> Promise d ∉ asked n (y_pid y n) e).
  { intros m id d Hm Hd (z & pid & Hz & Ha)%asked_in. destruct z; try done. injection Ha as <-. cbn in Hd. subst. eapply (once_app (T y n) e); [exact HO|exact Hm|exact Hz|done|done]. }
  (* what is withdrawn now *)
  assert (Hw : forall id, withdrawn (T y n ++ e) id -> withdrawn (T y n) id \/ (exists m, EvPromise m id ∈ T y n) /\ Cancel id n ∈ asked n (y_pid y n) e \/
    exists m e1 e2, e = e1 ++ EvPromise m id :: e2 /\ Cancel id n ∈ asked n (keeps (foldl keeps (y_pid y n) e1) (EvPromise m id)) e2).
  { intros id (t1 & m & t2 & t3 & E & Hno). apply app_eq_app in E as (k & [[E1 E2]|[E1 E2]]).
    - (* the promise is old or at the border *)
      destruct k as [|x k]; [|injection E2 as <- E2].
      + cbn in E2. rewrite app_nil_r in E1. right; right. exists m, [], (t2 ++ EvCancel m :: t3). cbn [app]. split; [done|]. cbn [foldl]. rewrite asked_app. apply elem_of_app. right. cbn [NamesViews.asked]. apply elem_of_app. left. cbn.
        rewrite keeps_none by done. unfold upd. rewrite bool_decide_true by done. by left.
      + apply app_eq_app in E2 as (k2 & [[-> E3]|[-> E3]]).
        * right; left. split; [exists m; rewrite E1; set_solver|]. rewrite E3, asked_app. apply elem_of_app; right. cbn [NamesViews.asked]. apply elem_of_app; left. cbn.
          assert (Hk : forall i, EvPromise m i ∉ k /\ EvPromise m i ∉ k2) by (intros i; split; intros Hi; apply (Hno i); apply elem_of_app; tauto).
          rewrite keeps_none by (intros i; apply Hk). rewrite (K1 n m id t1 k) by (done || (intros i; apply Hk)). by left.
        * destruct k2 as [|x k2]; cbn in E3.
          -- right; left. rewrite app_nil_r in E1. split; [exists m; rewrite E1; set_solver|]. rewrite <- E3. cbn [NamesViews.asked]. apply elem_of_app; left. cbn. rewrite (K1 n m id t1 t2) by done. by left.
          -- injection E3 as <- E3. left. exists t1, m, t2, k2. split; [by rewrite E1|done].
    - right; right. exists m, k, (t2 ++ EvCancel m :: t3). split; [done|]. rewrite asked_app. apply elem_of_app. right. cbn [NamesViews.asked]. apply elem_of_app. left. cbn.
      rewrite keeps_none by done. unfold upd. rewrite bool_decide_true by done. by left. }
  assert (Htoz : forall c d, Promise d ∈ y_to y c -> exists m, EvPromise m (dr_id d) ∈ T y c) by (intros c d (m & id & H & ->)%(i_to _ _ _ _ HY); by exists m).
  assert (Hprz : forall d, d ∈ promises (y_reg y) -> exists m, EvPromise m (dr_id d) ∈ T y (dr_origin d)) by (intros d (m & id & H & Ed)%(i_prom _ _ _ _ HY); exists m; rewrite Ed; by rewrite Ed in H).
  split.
  - intros c m id t1 t2. rewrite Et, Ep. case_decide; [subst c|apply K1]. intros E Hno. apply app_eq_app in E as (k & [[E1 E2]|[E1 E2]]).
    + destruct k as [|x k]; cbn in E2.
      * rewrite <- E2. cbn [foldl]. rewrite keeps_none by done. cbn. unfold upd. by rewrite bool_decide_true.
      * injection E2 as <- E2. rewrite keeps_none by (intros i Hi; apply (Hno i); rewrite E2; apply elem_of_app; by right). apply (K1 _ _ _ t1 k); [done|]. intros i Hi. apply (Hno i). rewrite E2. apply elem_of_app; by left.
    + rewrite E2, foldl_app. cbn [foldl]. rewrite keeps_none by done. cbn. unfold upd. by rewrite bool_decide_true.
  - intros c id. rewrite Eto, Er. case_decide; [subst c|apply K2]. rewrite proms_app. pose proof (K2 n id) as Hk. pose proof (asked_proms n (y_pid y n) e id HO2) as Ha.
    destruct (decide (proms id (asked n (y_pid y n) e) = 0%nat)) as [E|E]; [lia|]. assert (Hp : (0 < proms id (asked n (y_pid y n) e))%nat) by lia. apply proms_pos in Hp as (d & Hd & Hid).
    assert (H1 : proms id (y_to y n) = 0%nat).
    { destruct (proms id (y_to y n)) eqn:E1; [done|]. assert (Hp : (0 < proms id (y_to y n))%nat) by lia. apply proms_pos in Hp as (d' & Hd' & Hid'). apply Htoz in Hd' as (m & Hm). exfalso. apply (Hold m id d); [congruence|done|done]. }
    assert (H2 : mine n id (promises (y_reg y)) = 0%nat).
    { unfold mine. destruct (List.filter (is_mine n id) (promises (y_reg y))) as [|d' k] eqn:E1; [done|]. assert (Hf : d' ∈ List.filter (is_mine n id) (promises (y_reg y))) by (rewrite E1; by left).
      apply elem_of_list_In, filter_In in Hf as [Hx Hb]. apply elem_of_list_In in Hx. apply andb_true_iff in Hb as [Hb1%bool_decide_eq_true Hb2%bool_decide_eq_true]. apply Hprz in Hx as (m & Hm). exfalso. apply (Hold m id d); [congruence|done|done]. }
    lia.
  - intros c id. rewrite Et, Eto. case_decide; [subst c|apply K3]. intros HW l1 d l2 E Hid.
    assert (Hpos : (exists l2', y_to y n = l1 ++ Promise d :: l2' /\ l2 = l2' ++ asked n (y_pid y n) e) \/ exists l1', asked n (y_pid y n) e = l1' ++ Promise d :: l2 /\ l1 = y_to y n ++ l1').
    { apply app_eq_app in E as (k & [[E1 E2]|[E1 E2]]); [|right; exists k; split; [exact E2|exact E1]]. destruct k as [|x k]; cbn in E2.
      - right. exists []. rewrite app_nil_r in E1. rewrite E1, app_nil_r. split; [symmetry; exact E2|done].
      - injection E2 as <- E2. left. exists k. split; [exact E1|exact E2]. }
    apply Hw in HW as [HW|[[(m & Hm) Hc]|(m & e1 & e2 & -> & Hc)]].
    + destruct Hpos as [(l2' & E1 & ->)|(l1' & E1 & ->)]; [apply elem_of_app; left; by apply (K3 n id HW l1 d l2')|].
      exfalso. destruct HW as (t1 & m & t2 & t3 & HT & _). apply (Hold m id d); [rewrite HT; set_solver|done|rewrite E1; set_solver].
    + destruct Hpos as [(l2' & E1 & ->)|(l1' & E1 & ->)]; [apply elem_of_app; by right|]. exfalso. apply (Hold m id d); [done|done|rewrite E1; set_solver].
    + destruct Hpos as [(l2' & E1 & ->)|(l1' & E1 & ->)].
      { exfalso. destruct (Htoz n d) as (m' & Hm'); [rewrite E1; set_solver|]. rewrite Hid in Hm'. apply (once_app _ _ (EvPromise m' id) (EvPromise m id) id (QDisc m') (QDisc m) HO); [exact Hm'|set_solver|done|done]. }
      rewrite asked_app in E1. cbn [NamesViews.asked] in E1. cbn [asks app] in E1.
      pose proof (asked_proms n (y_pid y n) _ id HO2) as Hone.
      rewrite asked_app in Hone. cbn [NamesViews.asked] in Hone. cbn [asks] in Hone. rewrite !proms_app in Hone.
      assert (Hz : proms id [Promise (DiscReq id n n (nm m))] = 1%nat) by (unfold proms; cbn; by rewrite bool_decide_true). rewrite Hz in Hone.
      apply app_eq_app in E1 as (k & [[E1 E2]|[E1 E2]]).
      * destruct k as [|x k]; cbn in E2; [injection E2 as _ ->; exact Hc|]. injection E2 as <- E2. exfalso.
        assert (Hp : (0 < proms id (asked n (y_pid y n) e1))%nat) by (apply proms_pos; exists d; split; [rewrite E1; set_solver|done]). lia.
      * destruct k as [|x k]; cbn in E2; [injection E2 as _ <-; exact Hc|]. injection E2 as <- E2. exfalso.
        match type of E2 with ?a = _ => assert (Hp : (0 < proms id a)%nat) by (apply proms_pos; exists d; split; [rewrite E2; set_solver|done]) end. cbn [keeps] in Hone. lia.
  - intros HL c id d. rewrite Et, Eto, Er. case_decide; [subst c|by apply K4, Hlive]. intros HW Hd Hid Hor. apply elem_of_app. apply Hw in HW as [HW|[[_ Hc]|(m & e1 & e2 & -> & Hc)]].
    + left. by apply (K4 (Hlive HL) n id d).
    + by right.
    + right. rewrite asked_app. cbn [NamesViews.asked]. apply elem_of_app; right. apply elem_of_app; right. done.
Qed.

Lemma YC_init : YC (yinit ra).
Proof.
  split.
  - intros c m id t1 t2. rewrite trace_yinit. intros E. by destruct t1.
  - intros c id. cbn. lia.
  - intros c id (t1 & m & t2 & t3 & E & _). rewrite trace_yinit in E. by destruct t1.
  - intros _ c id d (t1 & m & t2 & t3 & E & _). rewrite trace_yinit in E. by destruct t1.
Qed.
Lemma YC_step y ev o y' e : YI y ev -> YC y -> ystep y o = Ok (y', e) -> YC y'.
Proof.
  intros HY HC Hs. destruct (YI_view nm cfg ra unl _ _ _ _ _ HY Hs) as [HV HF]. clear Hs.
  destruct HV as [n o' r0 y' s' e' HA|y' Hid Ht Hf|p m l y' Hid Hsv Hp Ht Hf|p m l y' r out En Hsv Hp Hr Er Ht Hf Epid|n r l y' Hid Ho Hn Ht Hf].
  - by eapply act_cancel.
  - eapply idle_cancel; try done; by left.
  - eapply idle_cancel; try done. right. split; [by apply serves_dead; [apply (i_ra _ _ _ _ HY)|]|]. intros k. rewrite Ht. case_decide; [subst k; rewrite Hp; by exists [m]|by exists []].
  - by eapply serve_cancel.
  - eapply idle_cancel; try done; by left.
Qed.
Lemma YC_run ops y ev : run ystep (yinit ra) ops = Ok (y, ev) -> YI y ev /\ YC y.
Proof.
  intros Hr. apply (run_inv_ev ystep (fun _ _ => True) (fun y ev => YI y ev /\ YC y)) with (ops := ops) (s := yinit ra) (ev := []); [|split; [by apply YI_init|apply YC_init]| |done].
  - intros s ev0 o s' e [HY HC] _ Hs. split; [by eapply YI_step|by eapply YC_step].
  - clear. generalize (yinit ra). induction ops as [|o ops IH]; intros y; cbn; [done|]. split; [done|]. by destruct (ystep y o) as [[? ?]| |].
Qed.
(** The answer to a promise which was given up is there, or under way. *)
Lemma withdrawn_run ops y ev c id : run ystep (yinit ra) ops = Ok (y, ev) -> serves ra (y_net y) = true -> y_to y c = [] -> withdrawn (T y c) id ->
  (forall d, d ∈ promises (y_reg y) -> ~ (dr_origin d = c /\ dr_id d = id)) /\
  (forall q, waits y c id q -> exists r, r ∈ y_from y c /\ number r = id).
Proof.
  intros Hr Hsv Ht Hw. pose proof (YC_run _ _ _ Hr) as [HY [_ _ _ K4]]. apply (serves_live _ _ (i_ra _ _ _ _ HY)) in Hsv as HL.
  assert (H1 : forall d, d ∈ promises (y_reg y) -> ~ (dr_origin d = c /\ dr_id d = id)).
  { intros d Hd [Ho Hi]. pose proof (K4 HL c id d Hw Hd Hi Ho) as Hx. rewrite Ht in Hx. by apply elem_of_nil in Hx. }
  split; [done|]. intros q Hq. pose proof Hq as [Hp _]%waits_pend. assert (Eq : exists m, q = QDisc m).
  { destruct Hw as (t1 & m & t2 & t3 & E & _). exists m. destruct (reach_reqs _ _ _ (fl_reach _ (i_fl _ _ _ _ HY) c)) as (_ & R2 & R3). apply (R2 id); [by apply R3|]. apply elem_of_list_omap. exists (EvPromise m id). split; [rewrite E; set_solver|done]. }
  destruct Eq as (m & ->). pose proof (waits_run nm cfg ra unl _ _ _ _ _ _ Hr Hsv Hq) as H. cbn in H. rewrite Ht in H. destruct H as [(? & ?%elem_of_nil & _)|[H|H]]; [done| |done].
  by destruct (H1 _ H).
Qed.
End cancel.
