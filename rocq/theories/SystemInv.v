(** What holds in a system: the child which the supervisor knows is the actor of the net. *)
From stdpp Require Import base list gmap.
From Verif Require Import Base Prog StateModel ChildMgrModel ChildMgrSpec ChildMgrProofs ChildMgrFacts FamilyModel FamilySpec FamilySteps FamilyFold FamilyInv FamilyProofs
  ActorModel ActorSpec ActorSafeSpec ActorReach NetModel NetSpec NetInv NetRun NetProofs SystemModel SystemSpec SystemSteps SystemFam.
Open Scope N_scope.

Lemma guarded_snoc {S O E} (st : S -> O -> res (S * list E)) ok s o1 o2 s1 e1 :
  guarded st ok s o1 -> run st s o1 = Ok (s1, e1) -> guarded st ok s1 o2 -> guarded st ok s (o1 ++ o2).
Proof.
  revert s e1. induction o1 as [|o o1 IH]; intros s e1 Hg Hr Hg2; cbn in *; [by inversion Hr; subst|].
  destruct Hg as [Hok Hg]. split; [done|]. destruct (st s o) as [[s' e']| |]; cbn in *; [|done..].
  destruct (run st s' o1) as [[s2 e2]| |] eqn:Er; cbn in Hr; [|done..]. inversion Hr; subst. by eapply IH.
Qed.

Section inv.
Context (hp : bool) (policy : spolicy) (sync : bool).
Context (cfg : N -> plug -> list uact) (ra : N) (unl : N -> bool) (HC : forall n, prudent_cfg ra (cfg n)).
Notation fstep := (fstep hp policy sync).
Notation nstep := (nstep cfg ra unl).
Notation ystep := (ystep hp policy sync cfg ra unl).
Notation yrule := (yrule hp policy sync cfg ra unl).

(** ** What an actor tells its supervisor *)
Definition kept (f f' : fstate) (n : N) (e : list aev) : Prop :=
  (kids f !! n = None -> kids f' !! n = None) /\
  forall ch, kids f !! n = Some ch -> exists ch', kids f' !! n = Some ch' /\ ch_state ch' = ch_state ch /\ (Forall (fun x => refused x = false) e -> ch_initreq ch' = ch_initreq ch).
Lemma chgs_split e x l : chgs e = x :: l -> exists e1 e2, e = e1 ++ EvState x.1 x.2 :: e2 /\ chgs e1 = [] /\ chgs e2 = l.
Proof.
  induction e as [|y e IH]; [done|]. unfold chgs. cbn [omap list_omap]. destruct (chg y) as [z|] eqn:Ez.
  - intros [= -> <-]. exists [], e. destruct y; try done. by injection Ez as <-.
  - intros H. destruct (IH H) as (e1 & e2 & -> & H1 & H2). exists (y :: e1), e2. split_and!; [done| |done]. unfold chgs. cbn [omap list_omap]. by rewrite Ez.
Qed.
Lemma tell_quiet n e : n <> 0 -> chgs e = [] -> forall f, exists f', run fstep f (omap (tells n) e) = Ok (f', []) /\ told n f f' [] /\ kept f f' n e.
Proof.
  intros Hn. induction e as [|x e IH]; intros He f.
  - exists f. split_and!; [done|apply told_refl|]. split; [done|]. intros ch Hc. eauto.
  - assert (Hx : chg x = None /\ chgs e = []). { unfold chgs in He. cbn [omap list_omap] in He. by destruct (chg x). } destruct Hx as [Hx He'].
    assert (H1 : exists f1, (match tells n x with Some o => fstep f o | None => Ok (f, []) end) = Ok (f1, []) /\ told n f f1 [] /\ kept f f1 n [x]).
    { assert (Hk : tells n x = None -> exists f1, (match tells n x with Some o => fstep f o | None => Ok (f, []) end) = Ok (f1, []) /\ told n f f1 [] /\ kept f f1 n [x]).
      { intros ->. exists f. split_and!; [done|apply told_refl|]. split; [done|]. intros ch Hc. eauto. }
      destruct x; try (apply Hk; done); cbn [tells].
      - destruct (tell_err hp policy sync n f Hn) as (f1 & E & Ht & Hs & Hnn). exists f1. split_and!; [done|done|]. split; [done|]. intros ch Hc. rewrite Hc in Hs.
        destruct (kids f1 !! n) as [ch'|]; [|done]. cbn in Hs. injection Hs as Hs. exists ch'. split_and!; [done|done|]. intros Hf. by inversion Hf.
      - destruct (tell_shut hp policy sync n f Hn) as (f1 & E & Ht & Hs). exists f1. split_and!; [done|done|]. split; rewrite Hs; [done|]. eauto. }
    destruct H1 as (f1 & E1 & T1 & K1). destruct (IH He' f1) as (f2 & E2 & T2 & K2). exists f2.
    assert (HK : kept f f2 n (x :: e)).
    { destruct K1 as [A1 A2], K2 as [B1 B2]. split; [auto|]. intros ch Hc. destruct (A2 ch Hc) as (ch1 & C1 & C2 & C3). destruct (B2 ch1 C1) as (ch2 & D1 & D2 & D3).
      exists ch2. split_and!; [done|congruence|]. intros [F1 F2]%Forall_cons. rewrite D3, C3; [done|by repeat constructor|done]. }
    cbn [omap list_omap]. destruct (tells n x) as [o|].
    + cbn [run]. rewrite E1. cbn [rbind]. rewrite E2. cbn [rbind]. split_and!; [done|apply (told_trans n f f1 f2 [] []); done|done].
    + injection E1 as ->. split_and!; done.
Qed.

(** ** A child and its actor *)
Record pair (f : fstate) (c : N) (ch : child) (s : astore) (tr : list aev) : Prop := {
  pr_st : ch_state ch = x_st s;
  pr_bye : c ∈ f_bye f <-> x_pts s = false;
  pr_ireq : x_ireq s = true -> ch_initreq ch = true \/ ~ Forall (fun x => refused x = false) tr;
  pr_life : life s;
  pr_down : x_st s = AShutDown -> x_pts s = false }.
Definition is_shut (a : aop) : bool := match a with OShutReq => true | _ => false end.
Lemma is_shut_spec a : is_shut a = true -> a = OShutReq.
Proof. by destruct a. Qed.
(** The message [a] was handled in the eyes of the supervisor. *)
Record before (a : aop) (f : fstate) (c : N) (ch : child) (s : astore) (tr : list aev) : Prop := {
  bf_st : if is_shut a then ch_state ch = AShuttingDown /\ x_pts s = true else ch_state ch = x_st s;
  bf_bye : c ∈ f_bye f <-> x_pts s = false \/ a = OUnsubscribed;
  bf_ireq : x_ireq s = true \/ a = OInitReq -> ch_initreq ch = true \/ ~ Forall (fun x => refused x = false) tr;
  bf_life : life s;
  bf_down : x_st s = AShutDown -> x_pts s = false }.

Lemma actor_step cf u a f n ch s tr s' e : n <> 0 -> kids f !! n = Some ch -> before a f n ch s tr -> astep cf ra u s a = Ok (s', e) -> answers_once (tr ++ e) ->
  exists f' ch', run fstep f (omap (tells n) e) = Ok (f', []) /\ told n f f' [] /\ kids f' !! n = Some ch' /\ pair f' n ch' s' (tr ++ e).
Proof.
  intros Hn Hc [B1 B2 B3 B4 B5] HS HO. pose proof (step_moved _ _ _ _ _ _ _ B4 HS) as [M1 M2 M3 M4].
  assert (Hbye : n ∈ f_bye f <-> x_pts s' = false).
  { rewrite B2, M2. destruct a; try (split; [intros [?|?]; done|by left]). case_bool_decide as Hd; [|split; [done|by right]]. split; [intros _; by apply B5|by right]. }
  assert (Hdown : x_st s' = AShutDown -> x_pts s' = false).
  { intros Hs'. rewrite M2. destruct M4 as [[_ E]|[(_ & _ & E & _)|[(_ & _ & _ & E)|[(_ & _ & _ & E)|(-> & _ & [[_ E]|(_ & _ & E)])]]]]; try congruence.
    - rewrite E in Hs'. specialize (B5 Hs'). rewrite B5. by destruct a; try case_bool_decide. }
  (* nothing but quiet events *)
  assert (HQ : forall f0 ch0 e0, chgs e0 = [] -> kids f0 !! n = Some ch0 ->
    exists f1 ch1, run fstep f0 (omap (tells n) e0) = Ok (f1, []) /\ told n f0 f1 [] /\ kids f1 !! n = Some ch1 /\ ch_state ch1 = ch_state ch0 /\ (Forall (fun x => refused x = false) e0 -> ch_initreq ch1 = ch_initreq ch0)).
  { intros f0 ch0 e0 He0 Hc0. destruct (tell_quiet n e0 Hn He0 f0) as (f1 & E1 & T1 & K1 & K2). destruct (K2 ch0 Hc0) as (ch1 & ? & ? & ?). eauto 10. }
  (* one change of the state *)
  assert (H1 : forall x e1 e2 (o : fop) ch', e = e1 ++ x :: e2 -> chgs e1 = [] -> chgs e2 = [] -> tells n x = Some o -> 
    (forall f0 ch0, kids f0 !! n = Some ch0 -> ch_state ch0 = ch_state ch -> f_bye f0 = f_bye f -> (Forall (fun x => refused x = false) e1 -> ch_initreq ch0 = ch_initreq ch) ->
      exists f1 ch1, fstep f0 o = Ok (f1, []) /\ told n f0 f1 [] /\ kids f1 !! n = Some ch1 /\ ch_state ch1 = ch' /\ (x_ireq s' = true -> ch_initreq ch1 = ch_initreq ch0)) ->
    exists f1 ch1, run fstep f (omap (tells n) e) = Ok (f1, []) /\ told n f f1 [] /\ kids f1 !! n = Some ch1 /\ ch_state ch1 = ch' /\
      (x_ireq s' = true -> Forall (fun x => refused x = false) e -> ch_initreq ch1 = ch_initreq ch)).
  { intros x e1 e2 o st -> He1 He2 Hx HH. destruct (HQ f ch e1 He1 Hc) as (f1 & ch1 & R1 & T1 & K1 & S1 & I1).
    destruct (HH f1 ch1 K1 S1 (td_bye _ _ _ _ T1) I1) as (f2 & ch2 & R2 & T2 & K2 & S2 & I2). destruct (HQ f2 ch2 e2 He2 K2) as (f3 & ch3 & R3 & T3 & K3 & S3 & I3).
    exists f3, ch3. split_and!; [| |done|congruence|].
    - rewrite omap_app, run_app, R1. cbn [rbind]. cbn [omap list_omap]. rewrite Hx. cbn [run]. rewrite R2. cbn [rbind]. rewrite R3. done.
    - apply (told_trans n f f1 f3 [] []); [done|]. by apply (told_trans n f1 f2 f3 [] []).
    - intros Hi Hf. apply Forall_app in Hf as [F1 [F2 F3]%Forall_cons]. rewrite I3, I2, I1; done. }
  assert (Hfin : forall f' ch', told n f f' [] -> run fstep f (omap (tells n) e) = Ok (f', []) -> kids f' !! n = Some ch' -> ch_state ch' = x_st s' ->
    (x_ireq s' = true -> Forall (fun x => refused x = false) e -> ch_initreq ch' = ch_initreq ch) ->
    exists f' ch', run fstep f (omap (tells n) e) = Ok (f', []) /\ told n f f' [] /\ kids f' !! n = Some ch' /\ pair f' n ch' s' (tr ++ e)).
  { intros f' ch' T R K S I. exists f', ch'. split_and!; try done. split; try done.
    - by rewrite (td_bye _ _ _ _ T).
    - intros Hi. destruct (decide (Forall (fun x => refused x = false) (tr ++ e))) as [Hf|]; [left|by right]. apply Forall_app in Hf as [F1 F2]. rewrite I by done.
      destruct (B3 (M3 Hi)) as [?|?]; done. }
  destruct M4 as [[E S]|[(E & S & S' & Hi & Hi')|[(E & S & S' & Hp)|[(-> & E & S & S')|(-> & Hr & HM)]]]].
  - destruct (HQ f ch e E Hc) as (f1 & ch1 & R1 & T1 & K1 & S1 & I1). apply (Hfin f1 ch1); try done.
    rewrite S1, S. destruct (is_shut a) eqn:Ea; [apply is_shut_spec in Ea as ->|done]. destruct B1 as [B1 B1']. rewrite B1.
    destruct (decide (rank (x_st s) < rank AShuttingDown)) as [Hlt|Hge].
    + destruct (shut_must cf ra u s s' e B4 Hlt HS) as [l El]. by rewrite E in El.
    + destruct (x_st s) eqn:Es; cbn in Hge; try lia; [done|]. rewrite B5 in B1' by done. done.
  - destruct (chgs_split _ _ _ E) as (e1 & e2 & Ee & E1 & E2). cbn in Ee.
    assert (Hno : Forall (fun x => refused x = false) (tr ++ e)). { destruct HO as [HO|HO]; [|done]. destruct HO. rewrite Ee. set_solver. }
    assert (Ha : a <> OShutReq). { intros ->. destruct (shut_must cf ra u s s' e B4) as [l El]; [by rewrite S|done|]. rewrite E, S in El. done. }
    replace (is_shut a) with false in B1 by (by destruct a). destruct (B3 Hi) as [Hir|Hx]; [|destruct Hx; by apply Forall_app in Hno as [? _]].
    apply Forall_app in Hno as [_ Hno].
    destruct (H1 _ e1 e2 (FChildInit n false) AInitialized Ee E1 E2 eq_refl) as (f1 & ch1 & R1 & T1 & K1 & S1 & I1).
    { intros f0 ch0 K0 S0 Hb0 I0. assert (Hf1 : Forall (fun x => refused x = false) e1) by (rewrite Ee in Hno; by apply Forall_app in Hno as [? _]).
      destruct (tell_init hp policy sync n f0 ch0) as (f1 & ch1 & R1 & T1 & K1 & S1); [done|done|congruence|by rewrite I0|]. exists f1, ch1. split_and!; try done. congruence. }
    apply (Hfin f1 ch1); try done. congruence.
  - destruct (chgs_split _ _ _ E) as (e1 & e2 & Ee & E1 & E2). cbn in Ee.
    assert (Hst : ch_state ch = AShuttingDown). { destruct (is_shut a); [by destruct B1|congruence]. }
    destruct (H1 _ e1 e2 (FChildDone n) AShutDown Ee E1 E2 eq_refl) as (f1 & ch1 & R1 & T1 & K1 & S1 & I1).
    { intros f0 ch0 K0 S0 Hb0 I0. destruct (tell_done hp policy sync n f0 ch0) as (f1 & ch1 & R1 & T1 & K1 & S1 & I1); [done|done|congruence|rewrite Hb0; by apply Hbye|]. exists f1, ch1. by split_and!. }
    apply (Hfin f1 ch1); try done. congruence.
  - destruct (chgs_split _ _ _ E) as (e1 & e2 & Ee & E1 & E2). cbn in Ee. cbn in B1.
    destruct (H1 _ e1 e2 (FChildStart n) AOperational Ee E1 E2 eq_refl) as (f1 & ch1 & R1 & T1 & K1 & S1 & I1).
    { intros f0 ch0 K0 S0 Hb0 I0. destruct (tell_start hp policy sync n f0 ch0) as (f1 & ch1 & R1 & T1 & K1 & S1 & I1); [done|done|congruence|]. exists f1, ch1. by split_and!. }
    apply (Hfin f1 ch1); try done. congruence.
  - cbn in B1. destruct B1 as [B1 B1']. destruct HM as [[E S']|(_ & _ & Hp)]; [|congruence].
    destruct (chgs_split _ _ _ E) as (e1 & e2 & Ee & E1 & E2). cbn in Ee.
    assert (E0 : omap (tells n) e = omap (tells n) (e1 ++ e2)). { rewrite Ee, !omap_app. cbn [omap list_omap]. by destruct (x_st s). }
    destruct (HQ f ch (e1 ++ e2)) as (f1 & ch1 & R1 & T1 & K1 & S1 & I1); [by rewrite chgs_app, E1, E2|done|].
    apply (Hfin f1 ch1); try done; [by rewrite E0|congruence|]. intros _ Hf. apply I1. rewrite Ee in Hf. apply Forall_app in Hf as [F1 [F2 F3]%Forall_cons]. apply Forall_app. by split.
Qed.

(** ** The whole system *)
Record cpl (x : option N) (f : fstate) (w : net) : Prop := {
  cp_zero : w_act w !! 0 = None;
  cp_same : forall c, c <> 0 -> is_Some (kids f !! c) <-> is_Some (w_act w !! c);
  cp_pos : 0 < cm_next (f_cm f);
  cp_next : forall c, is_Some (kids f !! c) -> c < cm_next (f_cm f);
  cp_bye : forall c, c <> 0 -> c ∈ f_bye f -> is_Some (kids f !! c);
  cp_pair : forall c ch nd, c <> 0 -> x <> Some c -> kids f !! c = Some ch -> w_act w !! c = Some nd -> pair f c ch (w_s nd) (w_ev nd) }.

Lemma act_cpl f w n nd a ch w' e : n <> 0 -> cpl (Some n) f w -> kids f !! n = Some ch -> w_act w !! n = Some nd -> before a f n ch (w_s nd) (w_ev nd) ->
  nact cfg ra unl w n nd a = Ok (w', e) -> map_Forall (fun _ nd => answers_once (w_ev nd)) (w_act w') ->
  exists f', run fstep f (omap (fun '(n, x) => tells n x) e) = Ok (f', []) /\ cpl None f' w'.
Proof.
  intros Hn HC1 Hk Hw Hb HS HO. unfold nact in HS. destruct (astep _ _ _ _ _) as [[s' e0]| |] eqn:Ha; cbn [rbind] in HS; [|done..]. injection HS as <- <-. cbn [w_act] in HO.
  assert (HO1 : answers_once (w_ev nd ++ e0)). { apply (HO n (WNode s' (w_ev nd ++ e0))). apply lookup_insert. }
  destruct (actor_step (cfg n) (unl n) a f n ch (w_s nd) (w_ev nd) s' e0 Hn Hk Hb Ha HO1) as (f' & ch' & R & T & K & P). exists f'. split.
  - rewrite <- R. f_equal. clear. induction e0 as [|x e IH]; [done|]. cbn. destruct (tells n x); [by f_equal|done].
  - destruct HC1 as [C1 C2 C3 C4 C5 C6], T as [T1 T2 T3 T4]. split; cbn [w_act].
    + by rewrite lookup_insert_ne.
    + intros c Hc. destruct (decide (c = n)) as [->|Hcn]; [rewrite lookup_insert, K; by split|]. rewrite lookup_insert_ne, T2 by done. auto.
    + by rewrite T4.
    + intros c Hc. rewrite T4. destruct (decide (c = n)) as [->|Hcn]; [apply C4; by rewrite Hk|]. rewrite T2 in Hc by done. auto.
    + intros c Hc. rewrite T3. intros Hin. destruct (decide (c = n)) as [->|Hcn]; [by rewrite K|]. rewrite T2 by done. auto.
    + intros c ch1 nd1 Hc _ Hk1. destruct (decide (c = n)) as [->|Hcn].
      * rewrite lookup_insert. intros [= <-]. rewrite K in Hk1. by injection Hk1 as <-.
      * rewrite lookup_insert_ne by done. intros Hw1. rewrite T2 in Hk1 by done. destruct (C6 c ch1 nd1) as [P1 P2 P3 P4 P5]; try done; [congruence|]. split; try done. by rewrite T3.
Qed.
Lemma new_run l : forall w, exists w', run nstep w (NNew <$> l) = Ok (w', []) /\ w_ch w' = w_ch w /\
  forall c, w_act w' !! c = match w_act w !! c with Some nd => Some nd | None => if decide (c ∈ l) then Some (WNode ainit []) else None end.
Proof.
  induction l as [|c0 l IH]; intros w; cbn [fmap list_fmap run].
  - exists w. split_and!; try done. intros c. destruct (w_act w !! c); [done|]. rewrite decide_False; [done|]. by intros ?%elem_of_nil.
  - cbn [NetModel.nstep]. destruct (bool_decide _) eqn:Eb; cbn [rbind].
    + destruct (IH w) as (w' & E & Hch & Hw). exists w'. rewrite E. split_and!; try done. intros c. rewrite Hw. destruct (w_act w !! c) eqn:Ec; [done|].
      apply bool_decide_eq_true in Eb. destruct (decide (c ∈ l)); destruct (decide (c ∈ c0 :: l)) as [Hin|]; try done; [set_solver|]. apply elem_of_cons in Hin as [->|?]; [|done]. destruct Eb; congruence.
    + destruct (IH (Net (<[c0:=WNode ainit []]> (w_act w)) (w_ch w) (w_uid w))) as (w' & E & Hch & Hw). exists w'. rewrite E. split_and!; try done. intros c. rewrite Hw. cbn [w_act].
      apply bool_decide_eq_false, eq_None_not_Some in Eb. destruct (decide (c = c0)) as [->|].
      * rewrite lookup_insert, Eb. rewrite decide_True; [done|set_solver].
      * rewrite lookup_insert_ne by done. destruct (w_act w !! c); [done|]. destruct (decide (c ∈ l)); destruct (decide (c ∈ c0 :: l)); set_solver.
Qed.
Lemma new_guarded l : forall w, guarded nstep (nrule cfg ra unl) w (NNew <$> l).
Proof. induction l as [|c l IH]; intros w; cbn; [done|]. split; [done|]. destruct (bool_decide _); apply IH. Qed.
Lemma tells_orderly l : Forall (fun o => match o with FChildInit _ _ | FChildStart _ | FChildDone _ | FShutdown _ => True | _ => False end) l -> forall f, guarded fstep orderly f l.
Proof.
  induction 1 as [|o l Ho _ IH]; intros f; cbn [guarded]; [done|]. split; [by destruct o|]. destruct (fstep f o) as [[f1 e1]| |]; [apply IH|done..].
Qed.
Lemma tells_kind e : Forall (fun o => match o with FChildInit _ _ | FChildStart _ | FChildDone _ | FShutdown _ => True | _ => False end) (omap (fun '(n, x) => tells n x) (e : list (N * aev))).
Proof. apply Forall_forall. intros o Ho. apply elem_of_list_omap in Ho as ([n x] & _ & Hx). unfold tells in Hx. repeat match type of Hx with (match ?t with _ => _ end) = _ => destruct t end; try done; by injection Hx as <-. Qed.

Lemma tells_total l : Forall (fun o => match o with FChildInit _ _ | FChildStart _ | FChildDone _ | FShutdown _ => True | _ => False end) l -> forall f, exists r, run fstep f l = Ok r.
Proof.
  induction 1 as [|o l Ho _ IH]; intros f; [by eexists|]. cbn [run]. assert (Hs : exists r, fstep f o = Ok r).
  { destruct o; try done; cbn [FamilyModel.fstep]; repeat match goal with |- exists r, (match ?t with _ => _ end) = _ => destruct t | |- exists r, (if ?t then _ else _) = _ => destruct t end; eauto. }
  destruct Hs as [[f1 e1] ->]. cbn [rbind]. destruct (IH f1) as [[f2 e2] ->]. by eexists.
Qed.
Lemma yact_total y o w e : nstep (y_w y) o = Ok (w, e) -> exists f e', yact hp policy sync cfg ra unl y o = Ok (Sys f w, e').
Proof. intros H. unfold yact. rewrite H. cbn [rbind]. destruct (tells_total _ (tells_kind e) (y_f y)) as [[f e'] ->]. cbn [rbind]. eauto. Qed.
Record yinv (y : sys) (ev : list yev) : Prop := {
  yi_f : exists fops, guarded fstep orderly (finit hp) fops /\ run fstep (finit hp) fops = Ok (y_f y, sup_trace ev);
  yi_w : exists nops, guarded nstep (nrule cfg ra unl) ninit nops /\ run nstep ninit nops = Ok (y_w y, act_trace ev);
  yi_born : forall c, ECreated c ∈ sup_trace ev <-> is_Some (w_act (y_w y) !! c);
  yi_c : cpl None (y_f y) (y_w y) }.
Lemma yinv_init : yinv (yinit hp) [].
Proof.
  split; [by exists []|by exists []| |].
  { intros c. cbn. rewrite lookup_empty. split; [by intros ?%elem_of_nil|by intros [? ?]]. }
  cbn. split; cbn; try done.
  - intros c Hc. unfold kids. cbn. rewrite lookup_singleton_ne by done. split; intros [? ?]; done.
  - intros c. unfold kids. cbn. destruct (decide (c = 0)) as [->|]; [done|]. rewrite lookup_singleton_ne by done. by intros [? ?].
Qed.
Lemma sup_app e1 e2 : sup_trace (e1 ++ e2) = sup_trace e1 ++ sup_trace e2.
Proof. apply omap_app. Qed.
Lemma act_app e1 e2 : act_trace (e1 ++ e2) = act_trace e1 ++ act_trace e2.
Proof. apply omap_app. Qed.
Lemma sup_sup e : sup_trace (YSup <$> e) = e.
Proof. induction e as [|x e IH]; [done|]. cbn. by f_equal. Qed.
Lemma act_sup e : act_trace (YSup <$> e) = [].
Proof. induction e as [|x e IH]; done. Qed.
Lemma sup_act e : sup_trace (uncurry YAct <$> e) = [].
Proof. induction e as [|[n x] e IH]; done. Qed.
Lemma act_act e : act_trace (uncurry YAct <$> e) = e.
Proof. induction e as [|[n x] e IH]; [done|]. cbn. by f_equal. Qed.

Lemma nstep_dom w o w' e : (forall n, o <> NNew n) -> nstep w o = Ok (w', e) -> forall c, is_Some (w_act w' !! c) <-> is_Some (w_act w !! c).
Proof.
  intros Hno. assert (HA : forall w0 n nd a, w_act w0 !! n = Some nd -> nact cfg ra unl w0 n nd a = Ok (w', e) -> forall c, is_Some (w_act w' !! c) <-> is_Some (w_act w0 !! c)).
  { intros w0 n nd a Hn. unfold nact. destruct (astep _ _ _ _ _) as [[s1 e1]| |]; cbn [rbind]; try done. intros [= <- _] c. cbn [w_act].
    destruct (decide (c = n)) as [->|]; [rewrite lookup_insert, Hn; split; by eauto|by rewrite lookup_insert_ne]. }
  destruct o as [n|n o|p n]; cbn [NetModel.nstep].
  - by destruct (Hno n).
  - destruct (w_act w !! n) as [nd|] eqn:E; [|by intros [= <- _]]. destruct (plain _ _); [|by intros [= <- _]]. by apply HA.
  - destruct (w_ch w p n) as [|m l]; [by intros [= <- _]|]. destruct (w_act w !! n) as [nd|] eqn:E; [|by intros [= <- _]]. by apply (HA (take_msg w p n m l)).
Qed.
(** The actors move: first the net, then the family. *)
Lemma yact_inv y ev o nops w0 : (exists fops, guarded fstep orderly (finit hp) fops /\ run fstep (finit hp) fops = Ok (y_f y, sup_trace ev)) ->
  guarded nstep (nrule cfg ra unl) ninit nops -> run nstep ninit nops = Ok (y_w y, act_trace ev) -> nrule cfg ra unl (y_w y) o ->
  (forall n, o <> NNew n) -> (forall c, ECreated c ∈ sup_trace ev <-> is_Some (w_act (y_w y) !! c)) ->
  nstep (y_w y) o = Ok w0 -> forall w' e, w0 = (w', e) ->
  (exists f', run fstep (y_f y) (omap (fun '(n, x) => tells n x) e) = Ok (f', []) /\ cpl None f' w') ->
  exists y' e', yact hp policy sync cfg ra unl y o = Ok (y', e') /\ yinv y' (ev ++ e').
Proof.
  intros (fops & Hfg & Hfr) Hng Hnr Hrule Hno Hbn Hs w' e -> (f' & Hf & Hcpl). unfold yact. rewrite Hs. cbn [rbind]. rewrite Hf. cbn [rbind]. rewrite app_nil_r. eexists _, _. split; [done|]. split; cbn [y_f y_w].
  - exists (fops ++ omap (fun '(n, x) => tells n x) e). split.
    + eapply guarded_snoc; [done|done|]. apply tells_orderly, tells_kind.
    + rewrite run_app, Hfr. cbn [rbind]. rewrite Hf. cbn [rbind]. rewrite sup_app. cbn. rewrite sup_act. done.
  - exists (nops ++ [o]). split.
    + eapply guarded_snoc; [done|done|]. cbn [guarded]. split; [done|]. by rewrite Hs.
    + rewrite run_app, Hnr. cbn [rbind run]. rewrite Hs. cbn [rbind]. rewrite app_nil_r, act_app, act_act. done.
  - intros c. rewrite sup_app, sup_act, app_nil_r, Hbn. symmetry. by eapply nstep_dom.
  - done.
Qed.
Lemma actor_free n o w nd w' e f : cpl None f w -> w_act w !! n = Some nd -> (match o with OInitReq | OShutReq | OUnsubscribed => False | _ => True end) ->
  nact cfg ra unl w n nd o = Ok (w', e) -> map_Forall (fun _ nd => answers_once (w_ev nd)) (w_act w') ->
  exists f', run fstep f (omap (fun '(n, x) => tells n x) e) = Ok (f', []) /\ cpl None f' w'.
Proof.
  intros HC1 Hw Ho HS HO. assert (Hn : n <> 0) by (intros ->; by rewrite (cp_zero _ _ _ HC1) in Hw).
  destruct (cp_same _ _ _ HC1 n Hn) as [_ [ch Hk]]; [by rewrite Hw|]. destruct (cp_pair _ _ _ HC1 n ch nd Hn ltac:(done) Hk Hw) as [P1 P2 P3 P4 P5].
  eapply (act_cpl f w n nd o ch); try done.
  - destruct HC1 as [C1 C2 C3 C4 C5 C6]. split; try done. intros c ch1 nd1 Hc _ ? ?. by apply C6.
  - split; try done.
    + by destruct o.
    + rewrite P2. split; [by left|]. by intros [?| ->].
    + by intros [?| ->]; [auto|].
Qed.

Lemma ystep_inv y ev o : yinv y ev -> yrule y o -> exists y' e, ystep y o = Ok (y', e) /\ yinv y' (ev ++ e).
Proof.
  intros HI [Hrule HO]. destruct HI as [HF HW HBn HCp]. destruct HF as (fops & Hfg & Hfr), HW as (nops & Hng & Hnr).
  pose proof (fam_reach hp policy sync fops _ _ Hfg Hfr) as Hfi. destruct (net_safe cfg ra unl HC nops Hng) as (w1 & ev1 & Hnr1 & Hwi).
  rewrite Hnr in Hnr1. injection Hnr1 as <- _.
  assert (Hskip : exists y' e, Ok (y, []) = Ok (y', e) /\ yinv y' (ev ++ e)). { exists y, []. rewrite app_nil_r. split; [done|]. split; eauto. }
  destruct o as [o|o]; cbn [SystemModel.ystep] in HO |- *.
  - destruct (by_child o) eqn:Hbc; [done|]. destruct Hrule as [Ho Hh].
    destruct (step_fin hp policy sync _ _ o Hfi Ho) as (f' & e & Hs & Hfi'). rewrite Hs in HO |- *. cbn [rbind] in HO |- *.
    assert (Hse : match handed (y_f y) o with Some (c, a) => given c a (y_f y) f' /\ c <> 0 /\ e = [] | None => quietly (y_f y) f' e end).
    { eapply step_effect; [by destruct (fi_all _ _ Hfi)| |done|exact Hs]. intros Hb. pose proof (fi_rinv _ _ Hfi Hb) as Hr. destruct (r_zero _ _ _ Hr) as (_ & _ & ?), (r_local _ _ _ Hr 0 (r_f0 _ _ _ Hr)) as [_ ?]. done. }
    assert (HF' : exists fops, guarded fstep orderly (finit hp) fops /\ run fstep (finit hp) fops = Ok (f', sup_trace (ev ++ (YSup <$> e)))).
    { exists (fops ++ [o]). split.
      - eapply guarded_snoc; [done|done|]. cbn [guarded]. split; [done|]. by rewrite Hs.
      - rewrite run_app, Hfr. cbn [rbind run]. rewrite Hs. cbn [rbind]. rewrite app_nil_r, sup_app, sup_sup. done. }
    destruct (new_run (born e) (y_w y)) as (w' & Hr & _ & Hw). rewrite Hr in HO |- *. cbn [rbind] in HO |- *.
    assert (HW' : guarded nstep (nrule cfg ra unl) ninit (nops ++ (NNew <$> born e)) /\ run nstep ninit (nops ++ (NNew <$> born e)) = Ok (w', act_trace (ev ++ (YSup <$> e)))).
    { split.
      - eapply guarded_snoc; [done|done|]. apply new_guarded.
      - rewrite run_app, Hnr. cbn [rbind]. rewrite Hr. cbn [rbind]. rewrite act_app, act_sup. done. }
    destruct HCp as [C1 C2 C3 C4 C5 C6]. destruct (handed (y_f y) o) as [[c a]|].
    + destruct Hse as (Hg & Hc & ->). cbn in Hr. injection Hr as <-. rewrite ?app_nil_r in HF', HW'. cbn in HF', HW'. rewrite ?app_nil_r in HF', HW'. destruct HW' as [HW1 HW2]. destruct Hg as [G1 G2 G3 G4 G5 G6 G7 G8].
      destruct (nstep_inv cfg ra unl HC _ _ Hwi Hh) as (w2 & e2 & Hn2 & _). 
      destruct (yact_inv (Sys f' (y_w y)) ev (NLocal c a) nops (w2, e2) HF' Hng Hnr Hh ltac:(done) HBn Hn2 w2 e2 eq_refl) as (y' & e' & Hy & Hyi).
      * destruct (yact_total (Sys f' (y_w y)) (NLocal c a) w2 e2 Hn2) as (f0 & e0 & Hy0). cbn [y_f]. cbn [NetModel.nstep] in Hn2. destruct (w_act (y_w y) !! c) as [nd|] eqn:Hwc.
        -- destruct (proj2 (C2 c Hc)) as [ch Hk]; [by rewrite Hwc|]. rewrite Hk in G4. destruct G4 as (ch' & Hk' & Hgot). destruct (C6 c ch nd Hc) as [P1 P2 P3 P4 P5]; try done.
           assert (Hpt : x_pts (w_s nd) = true). { destruct (x_pts (w_s nd)) eqn:E; [done|]. by destruct G2; apply P2. }
           assert (Hpl : plain (w_s nd) a = true) by (by destruct G1 as [->|[->| ->]]). rewrite Hpl in Hn2.
           assert (HCx : cpl (Some c) f' (y_w y)).
           { split; try done.
             - intros d Hd. destruct (decide (d = c)) as [->|]; [rewrite Hk', Hwc; by split|]. rewrite G3 by done. auto.
             - by rewrite G8.
             - intros d Hd. rewrite G8. destruct (decide (d = c)) as [->|]; [apply C4; by rewrite Hk|]. rewrite G3 in Hd by done. auto.
             - intros d Hd. destruct (decide (d = c)) as [->|]; [by rewrite Hk'|]. rewrite G5, G3 by done. auto.
             - intros d ch1 nd1 Hd Hdc Hk1 Hw1. assert (d <> c) by congruence. rewrite G3 in Hk1 by done. destruct (C6 d ch1 nd1) as [Q1 Q2 Q3 Q4 Q5]; try done. split; try done. by rewrite G5. }
           assert (HB : before a f' c ch' (w_s nd) (w_ev nd)).
           { split; try done.
             - destruct G1 as [->|[->| ->]]; cbn in Hgot |- *; [by rewrite (proj1 Hgot)|by destruct Hgot|by subst].
             - rewrite (G6 ltac:(by rewrite Hk)), Hpt. split; [by right|]. by intros [?|?].
             - destruct G1 as [->|[->| ->]]; cbn in Hgot.
               + intros _. left. apply Hgot.
               + rewrite (proj2 Hgot). by intros [?|?]; [auto|].
               + subst. by intros [?|?]; [auto|]. }
           assert (HO2 : map_Forall (fun _ nd => answers_once (w_ev nd)) (w_act w2)).
           { by rewrite Hy0 in HO. }
           by eapply (act_cpl f' (y_w y) c nd a ch').
        -- injection Hn2 as <- <-. exists f'. split; [done|]. assert (Hk : kids (y_f y) !! c = None).
           { apply eq_None_not_Some. rewrite C2, Hwc by done. by intros [? ?]. }
           rewrite Hk in G4. split; try done.
           ++ intros d Hd. destruct (decide (d = c)) as [->|]; [rewrite G4, Hwc; split; intros [? ?]; done|]. rewrite G3 by done. auto.
           ++ by rewrite G8.
           ++ intros d Hd. rewrite G8. destruct (decide (d = c)) as [->|]; [by rewrite G4 in Hd; destruct Hd|]. rewrite G3 in Hd by done. auto.
           ++ intros d Hd. destruct (decide (d = c)) as [->|]; [intros ?; by destruct G7|]. rewrite G5, G3 by done. auto.
           ++ intros d ch1 nd1 Hd _ Hk1 Hw1. assert (d <> c) by congruence. rewrite G3 in Hk1 by done. destruct (C6 d ch1 nd1) as [Q1 Q2 Q3 Q4 Q5]; try done. split; try done. by rewrite G5.
      * rewrite Hy. cbn [rbind]. eexists _, _. split; [done|]. done.
    + eexists _, _. split; [done|]. destruct Hse as [Q1 Q2 Q3 Q4].
      assert (Hb : forall c, c ∈ born e <-> ECreated c ∈ e).
      { intros c. unfold born. rewrite elem_of_list_omap. split; [|eauto]. intros (x & Hx & Hy). destruct x; try done. by injection Hy as ->. }
      assert (Hdec : forall c, {ECreated c ∈ e} + {ECreated c ∉ e}). { intros c. destruct (decide (c ∈ born e)) as [H|H]; rewrite Hb in H; auto. }
      split; cbn [y_f y_w]; [done|eauto| |].
      { intros c. rewrite sup_app, sup_sup, elem_of_app, HBn, <- Hb, Hw. destruct (w_act (y_w y) !! c); [split; by eauto|]. destruct (decide (c ∈ born e)); split; try by eauto.
        by intros [[? ?]|?]. }
      split.
      * rewrite Hw, C1. rewrite decide_False; [done|]. rewrite Hb. intros Hin. destruct (Q1 0 Hin) as (_ & E & _). lia.
      * intros c Hc. rewrite Hw. destruct (Hdec c) as [Hin|Hin].
        -- destruct (Q1 c Hin) as (-> & _). split; [|by eauto]. intros _. destruct (w_act (y_w y) !! c); [by eauto|]. rewrite decide_True; [by eauto|]. by apply Hb.
        -- rewrite Q2 by done. rewrite C2 by done. destruct (w_act (y_w y) !! c) eqn:Ec; [done|]. rewrite decide_False; [done|by rewrite Hb].
      * lia.
      * intros c Hc. destruct (Hdec c) as [Hin|Hin]; [by apply (Q1 c Hin)|]. rewrite Q2 in Hc by done. specialize (C4 c Hc). lia.
      * intros c Hc. rewrite Q3 by done. intros Hcb. destruct (Hdec c) as [Hin|Hin]; [destruct (Q1 c Hin) as (-> & _); by eauto|]. rewrite Q2 by done. auto.
      * intros c ch nd Hc _ Hk Hwc. rewrite Hw in Hwc. destruct (Hdec c) as [Hin|Hin].
        -- destruct (Q1 c Hin) as (Ek & En & _). rewrite Ek in Hk. injection Hk as <-.
           assert (Hno : kids (y_f y) !! c = None). { apply eq_None_not_Some. intros Hx. specialize (C4 c Hx). lia. }
           assert (Hno2 : w_act (y_w y) !! c = None). { apply eq_None_not_Some. rewrite <- C2 by done. rewrite Hno. by intros [? ?]. }
           rewrite Hno2 in Hwc. rewrite decide_True in Hwc by (by apply Hb). injection Hwc as <-. split; cbn; try done; [|by right].
           rewrite Q3 by done. split; [|done]. intros Hx. apply C5 in Hx; [|done]. rewrite Hno in Hx. by destruct Hx.
        -- rewrite Q2 in Hk by done. destruct (w_act (y_w y) !! c) as [nd1|] eqn:Ec; [|rewrite decide_False in Hwc; [done|by rewrite Hb]]. injection Hwc as ->.
           destruct (C6 c ch nd) as [P1 P2 P3 P4 P5]; try done. split; try done. by rewrite Q3.
  - destruct (by_sup o) eqn:Hbs; [done|]. destruct (nstep_inv cfg ra unl HC _ _ Hwi Hrule) as (w2 & e2 & Hn2 & _).
    assert (HO2 : map_Forall (fun _ nd => answers_once (w_ev nd)) (w_act w2)).
    { destruct (yact_total y o w2 e2 Hn2) as (f0 & e0 & Hy0). by rewrite Hy0 in HO. }
    eapply (yact_inv y ev o nops (w2, e2)); eauto; [by intros n ->|].
    destruct o as [n|n o|p n]; [done| |]; cbn [NetModel.nstep] in Hn2.
    + destruct (w_act (y_w y) !! n) as [nd|] eqn:Hwn; [|injection Hn2 as <- <-; by eauto]. destruct (plain (w_s nd) o); [|injection Hn2 as <- <-; by eauto].
      eapply (actor_free n o (y_w y) nd); try done. by destruct o.
    + assert (HT : forall m l, cpl None (y_f y) (take_msg (y_w y) p n m l)). { intros m l. destruct HCp as [C1 C2 C3 C4 C5 C6]. by split. }
      destruct (w_ch (y_w y) p n) as [|m l]; [injection Hn2 as <- <-; by eauto|].
      destruct (w_act (y_w y) !! n) as [nd|] eqn:Hwn; [|injection Hn2 as <- <-; by eauto].
      eapply (actor_free n (receive p m) (take_msg (y_w y) p n m l) nd); [apply HT|done|by destruct m|done|done].
Qed.
End inv.
