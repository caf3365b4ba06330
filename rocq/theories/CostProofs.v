(** C63: the bound in terms of what users ask for. *)
From stdpp Require Import base list gmap.
From Verif Require Import Base Prog ActorModel ActorSpec ActorMoves ActorReach NetModel NetSpec NetInv CostSpec CostActor CostNet.
Open Scope N_scope.

Lemma arun_links cfg ra unl ops : forall s s' ev, run (astep cfg ra unl) s ops = Ok (s', ev) ->
  (count is_link ev + to_configure cfg s' <= to_configure cfg s + sum_list_with credit ops)%nat.
Proof.
  induction ops as [|o ops IH]; intros s s' ev Hr; cbn [run sum_list_with] in *; [simplify_eq; cbn; lia|].
  destruct (astep cfg ra unl s o) as [[s1 e1]| |] eqn:Hs; cbn in Hr; [|done..]. destruct (run (astep cfg ra unl) s1 ops) as [[s2 e2]| |] eqn:Hr2; cbn in Hr; [|done..]. simplify_eq.
  rewrite count_app. pose proof (astep_links _ _ _ _ _ _ _ Hs). pose proof (IH _ _ _ Hr2). lia.
Qed.
Lemma to_configure_init cfg : to_configure cfg ainit = config_size cfg.
Proof. done. Qed.
Lemma arun_bound cfg ra unl ops s ev : run (astep cfg ra unl) ainit ops = Ok (s, ev) -> (count is_link ev <= config_size cfg + sum_list_with credit ops)%nat.
Proof. intros H. apply arun_links in H. rewrite to_configure_init in H. lia. Qed.

Lemma sum_perm {A} (f : A -> nat) l l' : l ≡ₚ l' -> sum_list_with f l = sum_list_with f l'.
Proof. induction 1; cbn; lia. Qed.
Section net.
Context (cfg : N -> plug -> list uact) (ra : N) (unl : N -> bool).
Definition pot1 (x : N * wnode) : nat := to_configure (cfg x.1) (w_s x.2).
Definition pot (m : gmap N wnode) : nat := sum_list_with pot1 (map_to_list m).
Lemma pot_new m n nd : m !! n = None -> pot (<[n := nd]> m) = (pot1 (n, nd) + pot m)%nat.
Proof. intros H. unfold pot. rewrite (sum_perm _ _ _ (map_to_list_insert m n nd H)). done. Qed.
Lemma pot_upd m n nd nd' : m !! n = Some nd -> (pot (<[n := nd']> m) + pot1 (n, nd) = pot m + pot1 (n, nd'))%nat.
Proof.
  intros H. rewrite <- (insert_delete_insert m), (pot_new (delete n m) n nd') by apply lookup_delete.
  rewrite <- (insert_delete m n nd) at 2 by done. rewrite (pot_new (delete n m) n nd) by apply lookup_delete. lia.
Qed.
Notation ncost := (ncost cfg).
Lemma count_map n e : count (fun y : N * aev => is_link y.2) ((fun x => (n, x)) <$> e) = count is_link e.
Proof. induction e as [|x e IH]; [done|]. rewrite fmap_cons, !count_cons, IH. done. Qed.
Lemma nact_pot w n nd o w' e : w_act w !! n = Some nd -> nact cfg ra unl w n nd o = Ok (w', e) ->
  (count (fun y => is_link y.2) e + pot (w_act w') <= pot (w_act w) + credit o)%nat.
Proof.
  intros Hn Ha. unfold nact in Ha. destruct (astep (cfg n) ra (unl n) (w_s nd) o) as [[s' e1]| |] eqn:Hs; cbn in Ha; [|done..]. injection Ha as <- <-. cbn [w_act].
  rewrite count_map. pose proof (astep_links _ _ _ _ _ _ _ Hs). pose proof (pot_upd (w_act w) n nd (WNode s' (w_ev nd ++ e1)) Hn) as HP. unfold pot1 in HP. cbn [fst snd w_s] in HP. lia.
Qed.
Lemma receive_credit p m : credit (receive p m) = 0%nat.
Proof. destruct m; cbn; try done. by destruct x. Qed.
Lemma nstep_pot w o w' e : nstep cfg ra unl w o = Ok (w', e) -> (count (fun y => is_link y.2) e + pot (w_act w') <= pot (w_act w) + ncost o)%nat.
Proof.
  intros Hs. destruct o as [n|n o|p n]; cbn [nstep ncost ncredit] in *.
  - case_bool_decide as Hd; simplify_eq; [cbn; lia|]. cbn [w_act]. rewrite pot_new by by apply eq_None_not_Some. unfold pot1. cbn [w_s fst snd]. rewrite to_configure_init, count_nil. lia.
  - destruct (w_act w !! n) as [nd|] eqn:Hn; [|simplify_eq; rewrite count_nil; lia]. destruct (plain (w_s nd) o); [|simplify_eq; rewrite count_nil; lia]. by eapply nact_pot.
  - destruct (w_ch w p n) as [|m l]; [simplify_eq; rewrite count_nil; lia|]. destruct (w_act w !! n) as [nd|] eqn:Hn; [|simplify_eq; rewrite count_nil; cbn; lia].
    eapply nact_pot in Hs; [|exact Hn]. rewrite receive_credit in Hs. done.
Qed.
Lemma nrun_pot ops : forall w w' e, run (nstep cfg ra unl) w ops = Ok (w', e) -> (count (fun y => is_link y.2) e + pot (w_act w') <= pot (w_act w) + sum_list_with ncost ops)%nat.
Proof.
  induction ops as [|o ops IH]; intros w w' e Hr; cbn [run sum_list_with] in *; [simplify_eq; rewrite count_nil; lia|].
  destruct (nstep cfg ra unl w o) as [[w1 e1]| |] eqn:Hs; cbn in Hr; [|done..]. destruct (run (nstep cfg ra unl) w1 ops) as [[w2 e2]| |] eqn:Hr2; cbn in Hr; [|done..]. simplify_eq.
  rewrite count_app. pose proof (nstep_pot _ _ _ _ Hs). pose proof (IH _ _ _ Hr2). lia.
Qed.
Lemma net_bound ops w ev : run (nstep cfg ra unl) ninit ops = Ok (w, ev) -> (length (deliveries cfg ra unl ninit ops) <= 4 * sum_list_with ncost ops)%nat.
Proof.
  intros H. pose proof (net_NI cfg ra unl ops w ev H) as HN. apply net_msgs in HN. apply nrun_pot in H. change (pot (w_act ninit)) with 0%nat in H. lia.
Qed.
Lemma deliveries_app ops ops' w w1 e1 : run (nstep cfg ra unl) w ops = Ok (w1, e1) -> deliveries cfg ra unl w (ops ++ ops') = deliveries cfg ra unl w ops ++ deliveries cfg ra unl w1 ops'.
Proof.
  revert w w1 e1. induction ops as [|o ops IH]; intros w w1 e1 Hr; cbn [run deliveries app] in *; [by simplify_eq|].
  destruct (nstep cfg ra unl w o) as [[w2 e2]| |] eqn:Hs; cbn in Hr; [|done..]. destruct (run (nstep cfg ra unl) w2 ops) as [[w3 e3]| |] eqn:Hr2; cbn in Hr; [|done..]. simplify_eq.
  rewrite <- (assoc_L (++)). f_equal. by eapply IH.
Qed.
Lemma takes_taken w o : takes w o -> length (taken w o) = 1%nat.
Proof. destruct o as [| |p n]; cbn; try done. intros [_ H]. by destruct (w_ch w p n). Qed.
Lemma takes_length ops : forall w w' e, guarded (nstep cfg ra unl) takes w ops -> run (nstep cfg ra unl) w ops = Ok (w', e) -> length (deliveries cfg ra unl w ops) = length ops /\ sum_list_with ncost ops = 0%nat.
Proof.
  induction ops as [|o ops IH]; intros w w' e Hg Hr; cbn [run deliveries guarded sum_list_with length] in *; [done|]. destruct Hg as [Ho Hg].
  destruct (nstep cfg ra unl w o) as [[w1 e1]| |] eqn:Hs; cbn in Hr; [|done..]. destruct (run (nstep cfg ra unl) w1 ops) as [[w2 e2]| |] eqn:Hr2; cbn in Hr; [|done..]. simplify_eq.
  destruct (IH _ _ _ Hg Hr2) as [E1 E2]. rewrite app_length, (takes_taken _ _ Ho), E1, E2. split; [done|]. by destruct o.
Qed.
Lemma net_stops ops ops' w ev w' ev' : run (nstep cfg ra unl) ninit ops = Ok (w, ev) -> guarded (nstep cfg ra unl) takes w ops' -> run (nstep cfg ra unl) w ops' = Ok (w', ev') ->
  (length ops' + length (deliveries cfg ra unl ninit ops) <= 4 * sum_list_with ncost ops)%nat.
Proof.
  intros H1 Hg H2. assert (Hr : run (nstep cfg ra unl) ninit (ops ++ ops') = Ok (w', ev ++ ev')) by (rewrite run_app, H1; cbn; by rewrite H2).
  apply net_bound in Hr. rewrite (deliveries_app _ _ _ _ _ H1), app_length in Hr. destruct (takes_length _ _ _ _ Hg H2) as [E1 E2].
  assert (sum_list_with ncost (ops ++ ops') = sum_list_with ncost ops + sum_list_with ncost ops')%nat as Ea by apply sum_list_with_app. lia.
Qed.
End net.
