(** C65: what is set aside by a supervisor pays for its parent and its child supervisors. *)
From stdpp Require Import base list gmap.
From Verif Require Import Base ChildMgrModel ChildMgrSpec ChildMgrProofs FamilyModel FamilySpec FamilySteps FlowSpec FlowInv FlowProofs FlowQuota TreeModel TreeSpec TreeProofs FlowTreeSpec.
Local Open Scope nat_scope.
Local Arguments wfam : simpl never.

Lemma t_upd (f : list N -> node -> nat) (t : tstate) n x y : t !! n = Some x -> msum f (<[n := y]> t) + f n x = msum f t + f n y.
Proof. apply msum_upd. Qed.
Lemma t_new (f : list N -> node -> nat) (t : tstate) n y : t !! n = None -> msum f (<[n := y]> t) = f n y + msum f t.
Proof. apply msum_new. Qed.

Section tree.
Context (pol : list N -> spolicy) (sync : list N -> bool).
Notation tstep := (tstep pol sync).
Notation local := (local pol sync).
Notation upcalls := (upcalls pol sync).
Notation nstep := (nstep pol sync).

Definition W (t : tstate) : nat := msum (fun _ nd => wfam (n_fam nd)) t.
Record TI (t : tstate) : Prop := { ti_cinv : forall n nd, t !! n = Some nd -> cinv (f_cm (n_fam nd)) }.
Definition taken (t : tstate) (n : list N) (o : fop) : nat := match t !! n with Some nd => moved (n_fam nd) o + owed (n_fam nd) o | None => 0 end.

Lemma local_size t n o t' e : local t n o = Ok (t', e) -> tsups t' = tsups t.
Proof.
  unfold TreeModel.local. destruct (t !! n) as [nd|] eqn:En; [|by intros [= <- <-]]. destruct (nstep n (n_fam nd) o) as [[s e1]| |]; [|done..]. cbn. intros [= <- <-].
  pose proof (t_upd (fun _ (_ : node) => 1) t n nd (Node s (n_ops nd ++ [o]) (n_ev nd ++ e1)) En) as Hx. cbn beta in Hx. unfold tsups. lia.
Qed.
Lemma local_cost t n o t' e : TI t -> local t n o = Ok (t', e) ->
  taken t n o + asides (hp n) e + W t' + 36 * tborn t <= W t + outside o + 36 * tborn t' /\ TI t'.
Proof.
  intros Ht. unfold TreeModel.local, taken. destruct (t !! n) as [nd|] eqn:En; [|intros [= <- <-]; split; [cbn; lia|done]].
  destruct (nstep n (n_fam nd) o) as [[s e1]| |] eqn:E; [|done..]. cbn. intros [= <- <-].
  destruct (fstep_cost (hp n) (pol n) (sync n) _ _ _ _ (ti_cinv _ Ht _ _ En) E) as [H1 H2]. split.
  - set (nd' := Node s _ _).
    pose proof (t_upd (fun _ nd => wfam (n_fam nd)) t n nd nd' En) as HW. pose proof (t_upd (fun _ nd => births (n_ev nd)) t n nd nd' En) as HB.
    cbn beta in HW, HB. cbn [n_fam n_ev nd'] in HW, HB. rewrite births_app in HB. unfold W, tborn in *. lia.
  - split. intros n' nd' H. destruct (decide (n = n')) as [<-|Hn]; [rewrite t_eq in H; by injection H as <-|rewrite t_ne in H by done; by eapply Ht].
Qed.
Lemma upcalls_cost n l : forall t t', TI t -> upcalls t n l = Ok t' ->
  W t' + 36 * tborn t <= W t + asides (hp n) l + 36 * tborn t' /\ TI t' /\ tsups t' = tsups t.
Proof.
  induction l as [|x l IH]; intros t t' Ht H; cbn [TreeModel.upcalls] in H; [injection H as <-; cbn; split; [lia|done]|].
  destruct (upcall pol sync t n x) as [[t1 e1]| |] eqn:E; [|done..]. cbn in H.
  assert (Hx : W t1 + 36 * tborn t <= W t + aside (hp n) x + 36 * tborn t1 /\ TI t1 /\ tsups t1 = tsups t).
  { unfold upcall in E. destruct n as [|c p]; [injection E as <- <-; split; [lia|done]|].
    destruct x; try (injection E as <- <-; split; [cbn; lia|done]); pose proof (local_size _ _ _ _ _ E); (apply local_cost in E as [H1 H2]; [|done]); cbn in *; (split; [lia|done]). }
  destruct Hx as (H1 & H2 & H3). apply IH in H as (H4 & H5 & H6); [|done]. split; [cbn; unfold asides in *; lia|]. split; [done|congruence].
Qed.
Lemma downcall_owed s o c oc : downcall s o = Some (c, oc) -> outside oc <= owed s o.
Proof.
  assert (Hh : forall m, handled s c m = Some (c, oc) -> outside oc <= match m with MInitReq _ => 3 | _ => 0 end).
  { intros m. unfold handled. case_decide; [done|]. destruct m; try done; intros [= <-]; done. }
  assert (Hc : forall d m, handled s d m = Some (c, oc) -> d = c) by (intros d m; unfold handled; case_decide; [done|]; destruct m; try done; by intros [= <- <-]).
  destruct o; try done; cbn.
  - destruct (f_q s) as [|m q]; [done|]. destruct m; try done; (destruct (_ || _); [done|]); intros H; pose proof (Hc _ _ H) as ->; exact (Hh _ H).
  - destruct (downl s c0) as [|m l]; [done|]. intros H. pose proof (Hc _ _ H) as ->. exact (Hh _ H).
Qed.

Lemma tstep_cost t o t' e : TI t -> tstep t o = Ok (t', e) ->
  tmoved t o + W t' + 28 * tsups t + 36 * tborn t <= W t + tout o + 28 * tsups t' + 36 * tborn t' /\ TI t'.
Proof.
  intros Ht H.
  assert (Hno : forall e1, Ok (t, e1) = Ok (t', e) -> W t' + 28 * tsups t + 36 * tborn t <= W t + 28 * tsups t' + 36 * tborn t' /\ TI t') by (intros e1 [= <- <-]; split; [lia|done]).
  assert (Hboth : forall n c oc on, outside oc = 0 -> outside on = 0 -> both pol sync t n c oc on = Ok (t', e) -> W t' + 28 * tsups t + 36 * tborn t <= W t + 28 * tsups t' + 36 * tborn t' /\ TI t').
  { intros n c oc on O1 O2 Hb. unfold both in Hb. destruct (local t (c :: n) oc) as [[t1 e1]| |] eqn:E1; [|done..]. cbn in Hb.
    pose proof (local_size _ _ _ _ _ E1) as D1. pose proof (local_size _ _ _ _ _ Hb) as D2. rewrite D2, D1. apply local_cost in E1 as [H1 T1]; [|done]. apply local_cost in Hb as [H2 T2]; [|done]. split; [lia|done]. }
  destruct o as [n o|n c|n c|n c|n c]; cbn [TreeModel.tstep tmoved tout] in *; try rewrite (Nat.add_0_r (W t)).
  - destruct (t !! n) as [nd|] eqn:En; [|apply Hno in H as [H1 H2]; split; [lia|done]]. destruct (shared t n o || negb (ready (n_fam nd) o)); [apply Hno in H as [H1 H2]; split; [lia|done]|].
    destruct (local t n o) as [[t1 e1]| |] eqn:E1; [|done..]. cbn in H. pose proof (local_size _ _ _ _ _ E1) as D1.
    apply local_cost in E1 as [H1 T1]; [|done]. unfold taken in H1. rewrite En in H1.
    assert (Hd : forall t2 e2, (match downcall (n_fam nd) o with Some (c, oc) => local t1 (c :: n) oc | None => Ok (t1, []) end) = Ok (t2, e2) ->
      W t2 + 36 * tborn t1 <= W t1 + owed (n_fam nd) o + 36 * tborn t2 /\ TI t2 /\ tsups t2 = tsups t1).
    { intros t2 e2. destruct (downcall (n_fam nd) o) as [[c oc]|] eqn:Ed; [|intros [= <- <-]; split; [lia|done]]. apply downcall_owed in Ed. intros E2.
      pose proof (local_size _ _ _ _ _ E2). apply local_cost in E2 as [H2 T2]; [|done]. split; [lia|done]. }
    destruct (match downcall (n_fam nd) o with Some (c, oc) => local t1 (c :: n) oc | None => Ok (t1, []) end) as [[t2 e2]| |]; [|done..]. cbn in H.
    destruct (Hd _ _ eq_refl) as (H2 & T2 & D2). destruct (upcalls t2 n e1) as [t3| |] eqn:E3; [|done..]. cbn in H. injection H as <- <-.
    apply upcalls_cost in E3 as (H3 & T3 & D3); [|done]. rewrite D3, D2, D1. split; [lia|done].
  - destruct (t !! n) as [nd|] eqn:En; [|by apply Hno in H]. destruct (t !! (c :: n)) as [m|] eqn:Ec; [by apply Hno in H|].
    destruct (child_ready (n_fam nd) c AInitializing) as [ch|]; [|by apply Hno in H]. destruct (_ || _); [by apply Hno in H|]. injection H as <- <-.
    set (x := Node (finit true) [] []). unfold W, tborn, tsups. rewrite !(t_new _ _ _ _ Ec). 
    cbn [n_fam n_ev x]. rewrite finit_cost. split; [cbn; lia|]. split. intros n' nd' H. destruct (decide (c :: n = n')) as [<-|Hn]; [rewrite t_eq in H; injection H as <-; apply cinv_init|rewrite t_ne in H by done; by eapply Ht].
  - destruct (t !! (c :: n)); [|by apply Hno in H]. destruct (ready _ _); [|by apply Hno in H]. by apply Hboth in H.
  - destruct (t !! (c :: n)); [|by apply Hno in H]. by apply Hboth in H.
  - destruct (t !! n); [|by apply Hno in H]. destruct (t !! (c :: n)); [|by apply Hno in H]. case_decide; [|by apply Hno in H]. by apply Hboth in H.
Qed.
Lemma tree_flow ops t t' ev : TI t -> run tstep t ops = Ok (t', ev) ->
  tmoves pol sync t ops + W t' + 28 * tsups t + 36 * tborn t <= W t + sum_list_with tout ops + 28 * tsups t' + 36 * tborn t' /\ TI t'.
Proof.
  revert t t' ev. induction ops as [|o ops IH]; intros t t' ev Ht H; cbn in H |- *.
  - injection H as <- <-. split; [cbn; lia|done].
  - destruct (tstep t o) as [[t1 e1]| |] eqn:E; [|done..]. cbn in H.
    destruct (run tstep t1 ops) as [[t2 e2]| |] eqn:E2; [|done..]. cbn in H. injection H as <- <-.
    apply tstep_cost in E as [H1 H2]; [|done]. apply IH in E2 as [H3 H4]; [|done]. split; [lia|done].
Qed.

(** ** Limits of spawners *)
Definition L (t : tstate) : nat := msum (fun _ nd => lefts (f_cm (n_fam nd))) t.
Definition TL (t : tstate) : Prop := forall n nd, t !! n = Some nd -> lims (f_cm (n_fam nd)).
Lemma local_left t n o t' e : TI t -> TL t -> limited_op o = true -> local t n o = Ok (t', e) ->
  tborn t' + L t' <= tborn t + L t + offspring o /\ TL t' /\ TI t'.
Proof.
  intros Ht Hl Ho H. destruct (local_cost _ _ _ _ _ Ht H) as [_ Ht']. unfold TreeModel.local in H. destruct (t !! n) as [nd|] eqn:En; [|injection H as <- <-; split; [lia|done]].
  destruct (nstep n (n_fam nd) o) as [[s e1]| |] eqn:E; [|done..]. cbn in H. injection H as <- <-.
  destruct (fstep_left (hp n) (pol n) (sync n) _ _ _ _ (ti_cinv _ Ht _ _ En) (Hl _ _ En) Ho E) as [H1 H2]. split; [|split; [|done]].
  - set (nd' := Node s _ _).
    pose proof (t_upd (fun _ nd => lefts (f_cm (n_fam nd))) t n nd nd' En) as HW. pose proof (t_upd (fun _ nd => births (n_ev nd)) t n nd nd' En) as HB.
    cbn beta in HW, HB. cbn [n_fam n_ev nd'] in HW, HB. rewrite births_app in HB. unfold L, tborn in *. lia.
  - intros n' nd' H. destruct (decide (n = n')) as [<-|Hn]; [rewrite t_eq in H; by injection H as <-|rewrite t_ne in H by done; by eapply Hl].
Qed.
Lemma upcalls_left n l : forall t t', TI t -> TL t -> upcalls t n l = Ok t' -> tborn t' + L t' <= tborn t + L t /\ TL t' /\ TI t'.
Proof.
  induction l as [|x l IH]; intros t t' Ht Hl H; cbn [TreeModel.upcalls] in H; [injection H as <-; split; [lia|done]|].
  destruct (upcall pol sync t n x) as [[t1 e1]| |] eqn:E; [|done..]. cbn in H.
  assert (Hx : tborn t1 + L t1 <= tborn t + L t /\ TL t1 /\ TI t1).
  { unfold upcall in E. destruct n as [|c p]; [injection E as <- <-; split; [lia|done]|].
    destruct x; try (injection E as <- <-; split; [cbn; lia|done]); (apply local_left in E as [H1 H2]; [|done..]); cbn in *; (split; [lia|done]). }
  destruct Hx as (H1 & H2 & H3). apply IH in H as [H4 H5]; [|done..]. split; [lia|done].
Qed.
Lemma downcall_kind s o c oc : downcall s o = Some (c, oc) -> limited_op oc = true /\ offspring oc = 0.
Proof.
  assert (Hh : forall d m, handled s d m = Some (c, oc) -> limited_op oc = true /\ offspring oc = 0).
  { intros d m. unfold handled. case_decide; [done|]. destruct m; try done; intros [= _ <-]; done. }
  destruct o; try done; cbn.
  - destruct (f_q s) as [|m q]; [done|]. destruct m; try done; (destruct (_ || _); [done|]); apply Hh.
  - destruct (downl s c0) as [|m l]; [done|]. apply Hh.
Qed.
Lemma tstep_left t o t' e : TI t -> TL t -> tlimited o = true -> tstep t o = Ok (t', e) -> tborn t' + L t' <= tborn t + L t + toffspring o /\ TL t'.
Proof.
  intros Ht Hl Ho H.
  assert (Hno : forall e1 k, Ok (t, e1) = Ok (t', e) -> tborn t' + L t' <= tborn t + L t + k /\ TL t') by (intros e1 k [= <- <-]; split; [lia|done]).
  assert (Hboth : forall n c oc on, offspring oc = 0 -> offspring on = 0 -> limited_op oc = true -> limited_op on = true -> both pol sync t n c oc on = Ok (t', e) -> tborn t' + L t' <= tborn t + L t + 0 /\ TL t').
  { intros n c oc on O1 O2 L1 L2 Hb. unfold both in Hb. destruct (local t (c :: n) oc) as [[t1 e1]| |] eqn:E1; [|done..]. cbn in Hb.
    apply local_left in E1 as (H1 & T1 & I1); [|done..]. apply local_left in Hb as (H2 & T2 & I2); [|done..]. split; [lia|done]. }
  destruct o as [n o|n c|n c|n c|n c]; cbn [TreeModel.tstep toffspring] in *.
  - destruct (t !! n) as [nd|] eqn:En; [|by eapply Hno]. destruct (shared t n o || negb (ready (n_fam nd) o)); [by eapply Hno|].
    destruct (local t n o) as [[t1 e1]| |] eqn:E1; [|done..]. cbn in H.
    apply local_left in E1 as (H1 & T1 & I1); [|done..].
    assert (Hd : forall t2 e2, (match downcall (n_fam nd) o with Some (c, oc) => local t1 (c :: n) oc | None => Ok (t1, []) end) = Ok (t2, e2) ->
      tborn t2 + L t2 <= tborn t1 + L t1 /\ TL t2 /\ TI t2).
    { intros t2 e2. destruct (downcall (n_fam nd) o) as [[c oc]|] eqn:Ed; [|intros [= <- <-]; split; [lia|done]]. apply downcall_kind in Ed as [K1 K2]. intros E2.
      apply local_left in E2 as (H2 & T2); [|done..]. split; [lia|done]. }
    destruct (match downcall (n_fam nd) o with Some (c, oc) => local t1 (c :: n) oc | None => Ok (t1, []) end) as [[t2 e2]| |]; [|done..]. cbn in H.
    destruct (Hd _ _ eq_refl) as (H2 & T2 & I2). destruct (upcalls t2 n e1) as [t3| |] eqn:E3; [|done..]. cbn in H. injection H as <- <-.
    apply upcalls_left in E3 as (H3 & T3 & _); [|done..]. split; [lia|done].
  - destruct (t !! n) as [nd|] eqn:En; [|by eapply Hno]. destruct (t !! (c :: n)) as [m|] eqn:Ec; [by eapply Hno|].
    destruct (child_ready (n_fam nd) c AInitializing) as [ch|]; [|by eapply Hno]. destruct (_ || _); [by eapply Hno|]. injection H as <- <-.
    set (x := Node (finit true) [] []). unfold L, tborn. rewrite !(t_new _ _ _ _ Ec). cbn [n_fam n_ev x].
    assert (lefts (f_cm (finit true)) = 0) as -> by (by vm_compute). split; [cbn; lia|]. intros n' nd' H.
    destruct (decide (c :: n = n')) as [<-|Hn]; [rewrite t_eq in H; injection H as <-|rewrite t_ne in H by done; by eapply Hl].
    intros a i Hi. cbn in Hi. apply lookup_singleton_Some in Hi as [<- <-]. by intros [? ?].
  - destruct (t !! (c :: n)); [|by eapply Hno]. destruct (ready _ _); [|by eapply Hno]. by apply Hboth in H.
  - destruct (t !! (c :: n)); [|by eapply Hno]. by apply Hboth in H.
  - destruct (t !! n); [|by eapply Hno]. destruct (t !! (c :: n)); [|by eapply Hno]. case_decide; [|by eapply Hno]. by apply Hboth in H.
Qed.
Lemma trun_left ops t t' ev : TI t -> TL t -> forallb tlimited ops = true -> run tstep t ops = Ok (t', ev) -> tborn t' + L t' <= tborn t + L t + sum_list_with toffspring ops.
Proof.
  revert t t' ev. induction ops as [|o ops IH]; intros t t' ev Ht Hl Hb H; cbn in H |- *.
  - injection H as <- <-. lia.
  - destruct (tstep t o) as [[t1 e1]| |] eqn:E; [|done..]. cbn in H.
    destruct (run tstep t1 ops) as [[t2 e2]| |] eqn:E2; [|done..]. cbn in H. injection H as <- <-. cbn in Hb. apply andb_true_iff in Hb as [Hb1 Hb2].
    destruct (tstep_cost _ _ _ _ Ht E) as [_ Ht1]. apply tstep_left in E as [H1 H2]; [|done..]. apply IH in E2; [|done..]. lia.
Qed.

(** ** Every supervisor but the root is a child *)
Lemma sups_born t : (forall c n m, t !! (c :: n) = Some m -> exists nd, t !! n = Some nd /\ ECreated c ∈ n_ev nd) -> tsups t <= 1 + tborn t.
Proof.
  intros Hp. set (l := map_to_list t : list (list N * node)).
  change (sum_list_with (fun _ : list N * node => 1) l <= 1 + sum_list_with (fun x : list N * node => births (n_ev x.2)) l).
  set (kids := fun x : list N * node => (fun c => c :: x.1) <$> created (n_ev x.2)).
  assert (Hb : forall l, sum_list_with (fun x : list N * node => births (n_ev x.2)) l = length (concat (kids <$> l))).
  { clear. intros l. induction l as [|x l IH]; [done|]. cbn. rewrite IH, app_length. unfold kids. by rewrite fmap_length, created_births. }
  assert (Hs : forall l, sum_list_with (fun _ : list N * node => 1) l = length l.*1).
  { clear. intros l. rewrite fmap_length. induction l as [|x l IH]; [done|]. cbn. lia. }
  rewrite Hb, Hs. change (1 + length (concat (kids <$> l))) with (length ([] :: concat (kids <$> l))).
  apply List.NoDup_incl_length; [apply NoDup_ListNoDup, NoDup_fst_map_to_list|].
  intros n Hn%elem_of_list_In. apply elem_of_list_fmap in Hn as ([n' nd'] & -> & Hn). apply elem_of_map_to_list in Hn. cbn. destruct n' as [|c n]; [by left|right].
  destruct (Hp _ _ _ Hn) as (nd & Hnd & Hc). apply List.in_concat. exists (kids (n, nd)). split.
  - apply elem_of_list_In, elem_of_list_fmap. exists (n, nd). split; [done|]. by apply elem_of_map_to_list.
  - apply elem_of_list_In. unfold kids. cbn. apply elem_of_list_fmap. exists c. split; [done|]. unfold created. apply elem_of_list_omap. by exists (ECreated c).
Qed.
End tree.

Lemma init_sum f : msum f tinit = f [] (Node (finit false) [] []).
Proof. unfold tinit. change (singletonM [] (Node (finit false) [] [])) with (<[ [] := Node (finit false) [] [] ]> (∅ : tstate)). rewrite t_new by apply lookup_empty. change (msum f (∅ : tstate)) with 0. lia. Qed.
Lemma TI_init : TI tinit.
Proof. split. intros n nd H. rewrite init_at in H. destruct n; [|done]. injection H as <-. apply cinv_init. Qed.
Lemma TL_init : TL tinit.
Proof. intros n nd H. rewrite init_at in H. destruct n; [|done]. injection H as <-. intros a i Hi. cbn in Hi. apply lookup_singleton_Some in Hi as [<- <-]. by intros [? ?]. Qed.

Lemma tree_total pol sync ops t ev : run (tstep pol sync) tinit ops = Ok (t, ev) ->
  tmoves pol sync tinit ops <= 12 + sum_list_with tout ops + 28 * tsups t + 36 * tborn t.
Proof.
  intros H. apply tree_flow in H as [H _]; [|apply TI_init]. unfold W, tsups at 1, tborn at 1 in H. rewrite !init_sum in H. cbn [n_fam n_ev] in H. rewrite finit_cost in H. cbn in H. lia.
Qed.
Lemma tree_sups pol sync ops t ev : guarded (tstep pol sync) tidy tinit ops -> run (tstep pol sync) tinit ops = Ok (t, ev) -> tsups t <= 1 + tborn t.
Proof. intros Hg H. apply sups_born. exact (te_par _ _ _ _ (tree_good _ _ _ _ _ Hg H)). Qed.
Lemma tree_limited pol sync ops t ev : forallb tlimited ops = true -> run (tstep pol sync) tinit ops = Ok (t, ev) -> tborn t <= sum_list_with toffspring ops.
Proof.
  intros Hb H. apply trun_left in H; [|apply TI_init|apply TL_init|done]. unfold L, tborn at 2 in H. rewrite !init_sum in H. cbn [n_fam n_ev] in H.
  assert (E : lefts (f_cm (finit false)) = 0) by (by vm_compute). rewrite E in H. cbn in H. lia.
Qed.
Lemma tree_limited_moves pol sync ops t ev : forallb tlimited ops = true -> guarded (tstep pol sync) tidy tinit ops -> run (tstep pol sync) tinit ops = Ok (t, ev) ->
  tborn t <= sum_list_with toffspring ops /\ tsups t <= 1 + tborn t /\ tmoves pol sync tinit ops <= 40 + sum_list_with (fun o => tout o + 64 * toffspring o) ops.
Proof.
  intros Hb Hg H. pose proof (tree_limited _ _ _ _ _ Hb H) as H1. pose proof (tree_sups _ _ _ _ _ Hg H) as H2. split; [done|]. split; [done|]. apply tree_total in H.
  assert (E : sum_list_with (fun o => tout o + 64 * toffspring o) ops = sum_list_with tout ops + 64 * sum_list_with toffspring ops) by (clear; induction ops as [|o ops IH]; cbn [sum_list_with]; lia).
  rewrite E. lia.
Qed.
Lemma tree_stops pol sync ops t ev : run (tstep pol sync) tinit ops = Ok (t, ev) ->
  exists n, forall ops' t' ev', run (tstep pol sync) t ops' = Ok (t', ev') -> sum_list_with tout ops' = 0 -> tborn t' = tborn t -> tsups t' = tsups t ->
    tmoves pol sync t ops' <= n.
Proof.
  intros H. apply tree_flow in H as [_ Ht]; [|apply TI_init]. exists (W t). intros ops' t' ev' H H1 H2 H3. apply tree_flow in H as [H _]; [|done]. rewrite H1, H2, H3 in H. lia.
Qed.
