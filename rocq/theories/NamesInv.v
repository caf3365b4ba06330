(** The invariant of the name service. *)
From stdpp Require Import base list gmap strings.
From Verif Require Import Base Prog RegistryModel RegistrySpec RegistryProofs ActorModel ActorSpec ActorMoves ActorReach ActorSteps NetModel NetSpec NetLocal NetViews NetInv NamesModel NamesSpec NamesLocal NamesEvents NamesFlight NamesViews.
Open Scope N_scope.

Section inv.
Context (nm : N -> string) (cfg : N -> plug -> list uact) (ra : N) (unl : N -> bool).
Context {HI : Inj eq eq nm}.
Notation S y n := (sto (y_net y) n).
Notation T y n := (trace (y_net y) n).
Notation ystep := (ystep nm cfg ra unl).
Notation registered := RegistryModel.registered.
Notation listed := (listed nm).
Notation backs := (backs nm).
Notation oks := (oks nm).
Notation acts := (acts nm cfg ra unl).
Notation yview := (yview nm cfg ra unl).

(** Messages are about what was asked. *)
Definition reg_req_ok (t : list aev) (n : N) (q : reg_req) : Prop := exists m id, EvReg m id ∈ t /\ q = RegReq id n (nm m) n.
Definition disc_req_ok (t : list aev) (n : N) (d : disc_req) : Prop := exists m id, EvDisc m id ∈ t /\ d = DiscReq id n n (nm m).
Definition prom_req_ok (t : list aev) (n : N) (d : disc_req) : Prop := exists m id, EvPromise m id ∈ t /\ d = DiscReq id n n (nm m).
Definition named (y : names) (k : string) (a : N) : Prop := exists m id, k = nm m /\ EvReg m id ∈ T y a.
Definition to_ok (y : names) (n : N) (x : rop) : Prop :=
  match x with
  | Reg q => reg_req_ok (T y n) n q
  | Discover d => disc_req_ok (T y n) n d
  | Promise d => prom_req_ok (T y n) n d
  | DeregService _ => True
  | Cancel _ c => c = n
  | Dereg _ => False
  end.
Definition from_ok (y : names) (n : N) (r : rout) : Prop :=
  match r with
  | RegOk q | RegAlreadyRegistered q => reg_req_ok (T y n) n q
  | DiscFound d a => disc_req_ok (T y n) n d /\ named y (dr_name d) a
  | DiscUnknown d => disc_req_ok (T y n) n d
  | PromFound d a => prom_req_ok (T y n) n d /\ named y (dr_name d) a
  | PromCancelled d => prom_req_ok (T y n) n d
  end.
(** Who owns a name. *)
Definition op (y : names) (c m : N) : Prop := x_rm (S y c) !! m = Some ROperational.
Record own (y : names) (c m : N) : Prop := Own {
  o_op : op y c m -> listed y c m /\ backs m (y_to y c) = 0%nat /\ oks m (y_from y c) = 0%nat /\ x_lked (S y c) = true;
  o_one : (backs m (y_to y c) <= 1)%nat /\ (oks m (y_from y c) <= 1)%nat;
  o_back : (0 < backs m (y_to y c))%nat -> listed y c m /\ x_rm (S y c) !! m = None /\ x_lked (S y c) = true /\ oks m (y_from y c) = 0%nat;
  o_ok : (0 < oks m (y_from y c))%nat -> listed y c m
}.
(** A request is under way. *)
Definition answered (y : names) (c id : N) : Prop := (exists r, r ∈ y_from y c /\ number r = id) \/ x_pend (S y c) !! id = None \/ x_st (S y c) = AShutDown.
Definition wait (y : names) (c : N) (x : aev) : Prop :=
  match x with
  | EvReg m id => Reg (RegReq id c (nm m) c) ∈ y_to y c \/ answered y c id
  | EvDisc m id => Discover (DiscReq id c c (nm m)) ∈ y_to y c \/ answered y c id
  | EvPromise m id => Promise (DiscReq id c c (nm m)) ∈ y_to y c \/ DiscReq id c c (nm m) ∈ promises (y_reg y) \/ answered y c id
  | _ => True
  end.
(** Where a name of the registry belongs. *)
Definition kept (y : names) (ev : list yev) (c m : N) : Prop :=
  op y c m \/ (0 < backs m (y_to y c))%nat \/ (0 < oks m (y_from y c))%nat \/ lost_answer nm ev c m \/ EvRegResp m false ∈ T y c.
Definition live (y : names) : Prop := x_st (S y ra) <> AShutDown.

Record YI (y : names) (ev : list yev) : Prop := Yi {
  i_fl : fl (y_net y);
  i_ra : is_Some (w_act (y_net y) !! ra);
  i_reg : exists ops out, run rstep rinit ops = Ok (y_reg y, out);
  i_to : forall n x, x ∈ y_to y n -> to_ok y n x;
  i_from : forall n r, r ∈ y_from y n -> from_ok y n r;
  i_prom : forall d, d ∈ promises (y_reg y) -> prom_req_ok (T y (dr_origin d)) (dr_origin d) d;
  i_named : forall k a, owner y k = Some a -> named y k a;
  i_found : forall c m a, EvDiscResp m (Some a) ∈ T y c -> exists id, EvReg m id ∈ T y a;
  i_own : forall c m, own y c m;
  i_wait : live y -> forall c x, x ∈ T y c -> wait y c x;
  i_back : live y -> forall c m, listed y c m -> kept y ev c m
}.

Lemma i_rinv y ev : YI y ev -> RInv (y_reg y).
Proof. intros H. destruct (i_reg _ _ H) as (ops & out & Hr). destruct (registry_reach ops) as (s & e & Hr' & HR & _). congruence. Qed.
Lemma serves_live y : is_Some (w_act (y_net y) !! ra) -> serves ra (y_net y) = true <-> live y.
Proof. intros [nd H]. unfold serves, live, sto. rewrite H. rewrite negb_true_iff, bool_decide_eq_false. done. Qed.
Lemma serves_dead y : is_Some (w_act (y_net y) !! ra) -> serves ra (y_net y) = false -> ~ live y.
Proof. intros H E HL. apply serves_live in HL; [congruence|done]. Qed.

Lemma reg_req_mono t e n q : reg_req_ok t n q -> reg_req_ok (t ++ e) n q.
Proof. intros (m & id & H & ->). exists m, id. split; [apply elem_of_app; by left|done]. Qed.
Lemma disc_req_mono t e n q : disc_req_ok t n q -> disc_req_ok (t ++ e) n q.
Proof. intros (m & id & H & ->). exists m, id. split; [apply elem_of_app; by left|done]. Qed.
Lemma prom_req_mono t e n q : prom_req_ok t n q -> prom_req_ok (t ++ e) n q.
Proof. intros (m & id & H & ->). exists m, id. split; [apply elem_of_app; by left|done]. Qed.

(** The query of an answer. *)
Lemma from_query y n r q : fl (y_net y) -> from_ok y n r -> x_pend (S y n) !! number r = Some q ->
  match r with
  | RegOk g | RegAlreadyRegistered g => exists m, q = QReg m /\ rr_name g = nm m
  | DiscFound d _ | DiscUnknown d | PromFound d _ | PromCancelled d => exists m, q = QDisc m /\ dr_name d = nm m
  end.
Proof.
  intros HF Hr Hq. destruct (reach_reqs _ _ _ (fl_reach _ HF n)) as (R1 & R2 & R3). pose proof (R3 _ _ Hq) as Hi.
  assert (Hx : forall x q', x ∈ T y n -> req_ev x = Some (number r, q') -> q = q').
  { intros x q' Hx He. eapply R2; [exact Hi|]. apply elem_of_list_omap. eauto. }
  destruct r as [g|g|d a|d|d a|d]; cbn in Hr, Hx.
  - destruct Hr as (m & id & Hin & ->). exists m. split; [|done]. by apply (Hx _ _ Hin).
  - destruct Hr as (m & id & Hin & ->). exists m. split; [|done]. by apply (Hx _ _ Hin).
  - destruct Hr as [(m & id & Hin & ->) _]. exists m. split; [|done]. by apply (Hx _ _ Hin).
  - destruct Hr as (m & id & Hin & ->). exists m. split; [|done]. by apply (Hx _ _ Hin).
  - destruct Hr as [(m & id & Hin & ->) _]. exists m. split; [|done]. by apply (Hx _ _ Hin).
  - destruct Hr as (m & id & Hin & ->). exists m. split; [|done]. by apply (Hx _ _ Hin).
Qed.

(** ** The registry takes a message *)
Lemma serve_inv y ev p x l y' r out : YI y ev -> y_net y' = y_net y -> serves ra (y_net y) = true -> y_to y p = x :: l -> rstep (y_reg y) x = Ok (r, out) -> y_reg y' = r ->
  (forall k, y_to y' k = if decide (k = p) then l else y_to y k) -> (forall k, y_from y' k = y_from y k ++ filter (fun z => receiver z = k) out) -> YI y' ev.
Proof.
  intros HY En Hsv Ht Hr Er Et Ef. pose proof (i_rinv _ _ HY) as HRI.
  destruct (rstep_refines (y_reg y) (owner y) x HRI (fun k => eq_refl)) as (r1 & b' & out1 & Hr1 & HRI' & Hb' & Hspec & _).
  rewrite Hr in Hr1. injection Hr1 as <- <-. subst r. change (forall k, b' k = owner y' k) in Hb'.
  pose proof (i_to _ _ HY p x ltac:(rewrite Ht; by left)) as Hx.
  assert (Hlive : live y' <-> live y) by (unfold live; by rewrite En).
  assert (Hto : forall k z, z ∈ y_to y' k -> z ∈ y_to y k) by (intros k z; rewrite Et; case_decide; [subst; rewrite Ht; by right|done]).
  (* what the answers say *)
  assert (Hout : forall z, z ∈ out -> from_ok y (receiver z) z /\ (forall q, z = RegOk q -> x = Reg q /\ owner y (rr_name q) = None)).
  { clear Ef. inversion Hspec; subst; cbn in Hx; intros z Hz.
    - apply elem_of_list_singleton in Hz as ->. split; [|done]. destruct Hx as (m & id & Hin & ->). by exists m, id.
    - apply elem_of_cons in Hz as [->|Hz].
      + split; [destruct Hx as (m & id & Hin & ->); by exists m, id|]. intros q [= ->]. done.
      + apply elem_of_list_fmap in Hz as (d & -> & [Hd Hin]%elem_of_list_filter). split; [|done]. cbn. destruct (i_prom _ _ HY _ Hin) as (m & id & Hin' & Ed). rewrite Ed in *. cbn in *.
        split; [by exists m, id|]. destruct Hx as (m' & id' & Hx & ->). cbn in *. rewrite Hd. by exists m', id'.
    - by destruct Hx.
    - by apply elem_of_nil in Hz.
    - apply elem_of_list_singleton in Hz as ->. split; [|done]. cbn. destruct Hx as (m & id & Hin & ->). split; [by exists m, id|]. by apply (i_named _ _ HY).
    - apply elem_of_list_singleton in Hz as ->. split; [|done]. destruct Hx as (m & id & Hin & ->). by exists m, id.
    - apply elem_of_list_singleton in Hz as ->. split; [|done]. cbn. destruct Hx as (m & id & Hin & ->). split; [by exists m, id|]. by apply (i_named _ _ HY).
    - by apply elem_of_nil in Hz.
    - by apply elem_of_nil in Hz.
    - apply elem_of_list_singleton in Hz as ->. split; [|done]. cbn. destruct (i_prom _ _ HY p0) as (m & id & Hin' & Ed); [match goal with E : promises (y_reg y) = _ |- _ => rewrite E end; set_solver|]. rewrite Ed in *. cbn in *. by exists m, id. }
  assert (Hfrom : forall k z, z ∈ y_from y' k -> z ∈ y_from y k \/ z ∈ out /\ receiver z = k) by (intros k z; rewrite Ef, elem_of_app, elem_of_list_filter; tauto).
  (* what changes in the registry *)
  assert (Hlist : forall (k : name) (a : addr), owner y' k = Some a -> owner y k = Some a \/ exists q, x = Reg q /\ rr_name q = k /\ a = p /\ owner y k = None).
  { intros k a. rewrite <- (Hb' k). inversion Hspec; subst; try (by left).
    - unfold bind_upd. case_decide; [|by left]. subst. intros [= <-]. right. exists r. destruct Hx as (m & id & Hin & ->). done.
    - unfold bind_upd. case_decide; [done|by left]. }
  assert (Hkeep : forall (k : name) (a : addr), owner y k = Some a -> owner y' k = Some a \/ x = DeregService k).
  { intros k a H. rewrite <- (Hb' k). inversion Hspec; subst; try (by left).
    - unfold bind_upd. case_decide; [subst; cbn in H0; congruence|by left].
    - unfold bind_upd. case_decide; [subst; by right|by left]. }
  assert (Hgone : forall k, x = DeregService k -> owner y' k = None).
  { intros k ->. rewrite <- (Hb' k). inversion Hspec; subst. unfold bind_upd. by rewrite decide_True. }
  assert (Hprom : forall d, d ∈ promises (y_reg y') -> d ∈ promises (y_reg y) \/ x = Promise d).
  { intros d. inversion Hspec; subst; try (by left).
    - intros [_ ?]%elem_of_list_filter. by left.
    - rewrite elem_of_app, elem_of_list_singleton. intros [?| ->]; [by left|by right].
    - match goal with E : promises (y_reg y) = _ |- _ => rewrite E end. set_solver. }
  split.
  - by rewrite En; apply (i_fl _ _ HY).
  - by rewrite En; apply (i_ra _ _ HY).
  - destruct (i_reg _ _ HY) as (ops & o & Hrun). exists (ops ++ [x]), (o ++ out). rewrite run_app, Hrun. cbn. rewrite Hr. cbn. by rewrite app_nil_r.
  - intros n z Hz%Hto%(i_to _ _ HY). destruct z; cbn in *; by rewrite ?En.
  - intros n z [Hz|[Hz <-]]%Hfrom; [apply (i_from _ _ HY) in Hz|apply Hout in Hz as [Hz _]]; unfold from_ok, named in *; by rewrite ?En.
  - intros d [Hd| ->]%Hprom; rewrite En; [by apply (i_prom _ _ HY)|]. cbn in Hx. destruct Hx as (m & id & Hin & ->). by exists m, id.
  - intros k a [Hk|(q & -> & <- & -> & _)]%Hlist; unfold named; rewrite En; [by apply (i_named _ _ HY)|]. destruct Hx as (m & id & Hin & ->). by exists m, id.
  - intros c m a. rewrite En. apply (i_found _ _ HY).
  - intros c m. pose proof (i_own _ _ HY c m) as HO. unfold op in *.
    assert (Hoks : oks m (y_from y' c) = (oks m (y_from y c) + oks m (filter (fun z => receiver z = c) out))%nat) by (by rewrite Ef, oks_app).
    assert (Hbk : (backs m (y_to y' c) <= backs m (y_to y c))%nat) by (rewrite Et; case_decide; [subst; rewrite Ht; unfold NamesViews.backs; cbn; case_match; cbn; lia|done]).
    assert (HC : (exists q, x = Reg q /\ rr_name q = nm m /\ owner y (nm m) = None) \/ ~ exists q, x = Reg q /\ rr_name q = nm m /\ owner y (nm m) = None).
    { clear. destruct x as [q| | | | |]; try (by right; intros (? & ? & _)). destruct (decide (rr_name q = nm m)) as [E|E]; [|right; intros (? & [= <-] & ? & _); done].
      destruct (owner y (nm m)) eqn:E2; [right; by intros (? & _ & _ & ?)|left; eauto]. }
    destruct HC as [(q & -> & Hq & Hnone)|Hno].
    { (* the name is registered now *)
      assert (HX : ~ listed y c m) by (unfold NamesSpec.listed; congruence).
      assert (B0 : backs m (y_to y c) = 0%nat) by (destruct (backs m (y_to y c)) eqn:E; [done|]; destruct HX; apply (o_back _ _ _ HO); lia).
      assert (O0 : oks m (y_from y c) = 0%nat) by (destruct (oks m (y_from y c)) eqn:E; [done|]; destruct HX; apply (o_ok _ _ _ HO); lia).
      assert (Hop : x_rm (S y c) !! m <> Some ROperational) by (intros E; destruct HX; by apply (o_op _ _ _ HO)).
      destruct Hx as (m0 & id & Hin & ->). cbn in Hq, Hr. apply (inj nm) in Hq as ->.
      assert (Ho : out = RegOk (RegReq id p (nm m) p) :: ((fun d => PromFound d p) <$> filter (fun d => dr_name d = nm m) (promises (y_reg y)))).
      { inversion Hspec; subst; [exfalso; match goal with Hd : owner y _ = Some _ |- _ => cbn [rr_name] in Hd; rewrite Hnone in Hd; done end|done]. }
      assert (Hl : listed y' p m) by (unfold NamesSpec.listed; rewrite <- (Hb' (nm m)); inversion Hspec; subst; [exfalso; match goal with Hd : owner y _ = Some _ |- _ => cbn [rr_name] in Hd; rewrite Hnone in Hd; done end|]; unfold bind_upd; by rewrite decide_True).
      assert (HP0 : forall l, oks m (filter (fun z => receiver z = c) ((fun d => PromFound d p) <$> l)) = 0%nat).
      { intros l0. apply oks_zero. intros q [_ Hq]%elem_of_list_filter. by apply elem_of_list_fmap in Hq as (? & ? & _). }
      assert (Hc : oks m (filter (fun z => receiver z = c) out) = if decide (c = p) then 1%nat else 0%nat).
      { rewrite Ho, filter_cons. cbn. destruct (decide (c = p)) as [->|E]; [rewrite decide_True by done|rewrite decide_False by (intros ->; done); apply HP0].
        match goal with |- NamesViews.oks _ _ (?a :: ?b) = _ => change (a :: b) with ([a] ++ b) end. rewrite oks_app, HP0. unfold NamesViews.oks. cbn. by rewrite bool_decide_true. }
      rewrite Hc, O0 in Hoks. split; unfold op; rewrite ?En, ?Hoks; try done.
      - split; [lia|case_decide; lia].
      - lia.
      - case_decide; [by subst|lia]. }
    assert (Hoks' : oks m (y_from y' c) = oks m (y_from y c)).
    { rewrite Hoks. enough (oks m (filter (fun z => receiver z = c) out) = 0%nat) as -> by lia. apply oks_zero. intros q [_ Hz]%elem_of_list_filter Hq. apply Hout in Hz as [_ Hz]. destruct (Hz q eq_refl) as [-> Hz']. rewrite Hq in Hz'. destruct Hno. by exists q. }
    assert (HC : x = DeregService (nm m) \/ x <> DeregService (nm m)).
    { clear. destruct x as [| |k| | |]; try (by right). destruct (decide (k = nm m)) as [->|E]; [by left|right; congruence]. }
    destruct HC as [->|Hnd].
    { (* it is given back *)
      assert (Hpos : (0 < backs m (y_to y p))%nat) by (apply backs_pos; rewrite Ht; by left).
      destruct (o_back _ _ _ (i_own _ _ HY p m) Hpos) as (Hl & Hrm & Hlk & Ho0). pose proof (Hgone _ eq_refl) as Hg.
      assert (Hother : c <> p -> ~ listed y c m) by (unfold NamesSpec.listed in *; congruence).
      assert (B0 : backs m (y_to y' c) = 0%nat).
      { rewrite Et. case_decide as E; [|destruct (backs m (y_to y c)) eqn:E2; [done|]; destruct (Hother E); apply (o_back _ _ _ HO); lia].
        subst. destruct (o_one _ _ _ HO) as [H1 _]. rewrite Ht in H1. unfold NamesViews.backs in *. cbn in H1. rewrite bool_decide_true in H1 by done. cbn in H1. lia. }
      assert (O0 : oks m (y_from y c) = 0%nat).
      { destruct (decide (c = p)) as [->|E]; [done|]. destruct (oks m (y_from y c)) eqn:E2; [done|]. destruct (Hother E). apply (o_ok _ _ _ HO). lia. }
      split; unfold op; rewrite ?En, ?Hoks', ?B0, ?O0; try lia.
      intros Hop. destruct (decide (c = p)) as [->|E]; [congruence|]. destruct (Hother E). by apply (o_op _ _ _ HO). }
    assert (Hl : listed y c m -> listed y' c m) by (intros H; destruct (Hkeep _ _ H); done).
    split; unfold op; rewrite ?En, ?Hoks'.
    + intros H. destruct (o_op _ _ _ HO H) as (H1 & H2 & H3 & H4). split_and!; auto. lia.
    + destruct (o_one _ _ _ HO). split; lia.
    + intros H. destruct (o_back _ _ _ HO) as (H1 & H2 & H3 & H4); [lia|]. split_and!; auto.
    + intros H. auto using (o_ok _ _ _ HO).
  - intros HL%Hlive c z Hz. rewrite En in Hz. pose proof (i_wait _ _ HY HL _ _ Hz) as HW.
    assert (Hans : forall id, answered y c id -> answered y' c id).
    { intros id [(r & Hr1 & Hr2)|H]; [left; exists r; split; [rewrite Ef; apply elem_of_app; by left|done]|right; by rewrite En]. }
    assert (Hnew : forall v id, v ∈ out -> receiver v = c -> number v = id -> answered y' c id).
    { intros v id H1 H2 H3. left. exists v. split; [|done]. rewrite Ef. apply elem_of_app. right. by apply elem_of_list_filter. }
    assert (Hm : forall v, v ∈ y_to y c -> v ∈ y_to y' c \/ c = p /\ v = x).
    { intros v. rewrite Et. case_decide; [|by left]. subst. rewrite Ht, elem_of_cons. intros [->|?]; [by right|by left]. }
    destruct z; cbn in HW |- *; try done.
    + destruct HW as [H|H]; [|auto]. destruct (Hm _ H) as [?|[-> <-]]; [by left|]. right. inversion Hspec; subst; (eapply Hnew; [by left|done|done]).
    + destruct HW as [H|H]; [|auto]. destruct (Hm _ H) as [?|[-> <-]]; [by left|]. right. inversion Hspec; subst; (eapply Hnew; [by left|done|done]).
    + assert (Hp : DiscReq id c c (nm n) ∈ promises (y_reg y) -> DiscReq id c c (nm n) ∈ promises (y_reg y') \/ answered y' c id).
      { intros Hin. inversion Hspec; subst; try (by left; rewrite ?H0).
        - destruct (decide (nm n = rr_name r)) as [E|E]; [right|left; by apply elem_of_list_filter].
          eapply (Hnew (PromFound (DiscReq id c c (nm n)) (rr_addr r))); [|done|done]. right. apply elem_of_list_fmap. eexists. split; [done|]. by apply elem_of_list_filter.
        - left. apply elem_of_app. by left.
        - match goal with E : promises (y_reg y) = _ |- _ => rewrite E in Hin end. rewrite elem_of_app, elem_of_cons in Hin. rewrite elem_of_app. destruct Hin as [?|[<-|?]]; [tauto| |tauto]. right. eapply Hnew; [by left|done|done]. }
      destruct HW as [H|[H|H]]; [|auto|auto]. destruct (Hm _ H) as [?|[-> <-]]; [by left|]. right. inversion Hspec; subst.
      * right. eapply Hnew; [by left|done|done].
      * left. apply elem_of_app. right. by left.
  - intros HL%Hlive c m Hl. unfold kept, op. rewrite En. destruct (Hlist _ _ Hl) as [Hl0|(q & -> & Hq & -> & Hnone)].
    + destruct (i_back _ _ HY HL _ _ Hl0) as [H|[H|[H|H]]]; [by left| | |by auto].
      * right; left. apply backs_pos in H. apply backs_pos. rewrite Et. case_decide; [|done]. subst. rewrite Ht in H. apply elem_of_cons in H as [<-|H]; [|done]. unfold NamesSpec.listed in Hl. by rewrite Hgone in Hl.
      * do 2 right. left. rewrite Ef, oks_app. lia.
    + do 2 right. left. apply oks_pos. exists q. split; [|done]. rewrite Ef, elem_of_app, elem_of_list_filter. right. destruct Hx as (m0 & id & Hin & ->). split; [done|].
      inversion Hspec; subst; [|by left]. exfalso. match goal with Hd : owner y (rr_name _) = Some _ |- _ => rewrite Hq in Hd; rewrite Hnone in Hd; done end.
Qed.

(** ** Messages are lost, or nothing happens *)
Lemma idle_inv y ev y' e : YI y ev -> idle y y' -> fl (y_net y') -> is_Some (w_act (y_net y') !! ra) ->
  (forall k, y_to y' k = y_to y k) \/ ~ live y /\ (forall k, exists l, y_to y k = l ++ y_to y' k) ->
  (forall k, y_from y' k = y_from y k) \/ (exists n r l, y_from y n = r :: l /\ (forall k, y_from y' k = if decide (k = n) then l else y_from y k) /\ (x_pend (S y n) !! number r = None \/ x_st (S y n) = AShutDown) /\ YDrop n r ∈ e) ->
  YI y' (ev ++ e).
Proof.
  intros HY [Es Etr Er] HF Hra Ht Hf.
  assert (Hlive : live y' <-> live y) by (unfold live; by rewrite Es).
  assert (Hto : forall k x, x ∈ y_to y' k -> x ∈ y_to y k) by (intros k x; destruct Ht as [->|[_ Ht]]; [done|]; destruct (Ht k) as [l ->]; rewrite elem_of_app; by right).
  assert (Hfrom : forall k x, x ∈ y_from y' k -> x ∈ y_from y k) by (intros k x; destruct Hf as [->|(n & r & l & E1 & E2 & _)]; [done|]; rewrite E2; case_decide; [subst; rewrite E1; by right|done]).
  assert (Hbk : forall m k, (backs m (y_to y' k) <= backs m (y_to y k))%nat) by (intros m k; destruct Ht as [->|[_ Ht]]; [done|]; destruct (Ht k) as [l ->]; rewrite backs_app; lia).
  assert (Hok : forall m k, (oks m (y_from y' k) <= oks m (y_from y k))%nat).
  { intros m k. destruct Hf as [->|(n & r & l & E1 & E2 & _)]; [done|]; rewrite E2; case_decide; [subst; rewrite E1|done]. change (r :: l) with ([r] ++ l). rewrite oks_app. lia. }
  assert (Hown : forall k, owner y' k = owner y k) by (intros k; unfold owner; by rewrite Er).
  split; try done.
  - rewrite Er. apply (i_reg _ _ HY).
  - intros n x Hx%Hto%(i_to _ _ HY). destruct x; cbn in *; by rewrite ?Etr.
  - intros n r Hr%Hfrom%(i_from _ _ HY). unfold from_ok, named in *. destruct r; by setoid_rewrite Etr.
  - intros d. rewrite Er, Etr. apply (i_prom _ _ HY).
  - intros k a. rewrite Hown. intros (m & id & E & H)%(i_named _ _ HY). exists m, id. by rewrite Etr.
  - intros c m a. rewrite Etr. intros (id & H)%(i_found _ _ HY). exists id. by rewrite Etr.
  - intros c m. destruct (i_own _ _ HY c m) as [O1 O2 O3 O4]. specialize (Hbk m c). specialize (Hok m c). split; unfold op, NamesSpec.listed in *; rewrite ?Es, ?Hown.
    + intros H. destruct (O1 H) as (H1 & H2 & H3 & H4). split_and!; try done; lia.
    + lia.
    + intros H. destruct O3 as (H1 & H2 & H3 & H4); [lia|]. split_and!; try done; lia.
    + intros H. apply O4. lia.
  - intros HL%Hlive c x. rewrite Etr. intros Hx%(i_wait _ _ HY HL).
    assert (Et : forall k, y_to y' k = y_to y k) by (by destruct Ht as [?|[? _]]).
    assert (Ha : forall id, answered y c id -> answered y' c id).
    { intros id [(r & Hr & <-)|H]; [|right; by rewrite Es]. destruct Hf as [Hf|(n & r' & l & E1 & E2 & Hp & _)]; [left; exists r; by rewrite Hf|]. unfold answered. rewrite E2, Es. case_decide as Hc; [subst c|left; by exists r].
      rewrite E1 in Hr. apply elem_of_cons in Hr as [->|Hr]; [by right|left; by exists r]. }
    destruct x; cbn in *; rewrite ?Et, ?Er; tauto || naive_solver.
  - intros HL%Hlive c m. unfold NamesSpec.listed. rewrite Hown. intros Hl%(i_back _ _ HY HL).
    assert (Et : forall k, y_to y' k = y_to y k) by (by destruct Ht as [?|[? _]]).
    unfold kept, op in *. rewrite Es, Et, Etr. destruct Hl as [H|[H|[H|[H|H]]]]; try tauto.
    + destruct Hf as [Hf|(n & r & l & E1 & E2 & _ & He)]; [rewrite Hf; tauto|]. rewrite E2. case_decide as Hc; [|tauto]. subst c. rewrite E1 in H. apply oks_pos in H as (q & Hq & Hn). apply elem_of_cons in Hq as [<-|Hq].
      * do 3 right. left. exists q. split; [apply elem_of_app; by right|done].
      * do 2 right. left. apply oks_pos. by exists q.
    + do 3 right. left. destruct H as (q & Hq & Hn). exists q. split; [apply elem_of_app; by left|done].
Qed.
End inv.
