(** C63: at most four messages for one link. *)
From stdpp Require Import base list gmap gmultiset.
From Verif Require Import Base Prog ActorModel ActorSpec ActorMoves ActorReach NetModel NetSpec NetInv CostSpec CostActor.
Open Scope N_scope.

(** ** One actor *)
Lemma count_cons {A} (f : A -> bool) x l : count f (x :: l) = ((if f x then 1 else 0) + count f l)%nat.
Proof. change (x :: l) with ([x] ++ l). by rewrite count_app, count_one. Qed.
Lemma count_nil {A} (f : A -> bool) : count f [] = 0%nat.
Proof. done. Qed.
Definition swt (x : option srec) : nat := match x with Some _ => 1 | None => 0 end.
Definition kwt (x : option cstate) : nat := match x with Some (CPending _) => 2 | Some COperational => 1 | _ => 0 end.
Lemma reach_server_msgs D a s ev : reach D s ev -> (count (says_to_server a) ev + swt (x_sv s !! a) <= 2 * count (links_to a) ev)%nat.
Proof.
  apply (reach_inv D (fun s ev => (count (says_to_server a) ev + swt (x_sv s !! a) <= 2 * count (links_to a) ev)%nat)); [cbn; rewrite lookup_empty; cbn; lia|].
  clear s ev. intros s ev e s' _ H Hm. rewrite !count_app.
  assert (HD : Forall (fun x => says_to_server a x = false) e -> x_sv s' = x_sv s -> (count (says_to_server a) ev + count (says_to_server a) e + swt (x_sv s' !! a) <= 2 * (count (links_to a) ev + count (links_to a) e))%nat).
  { intros He ->. rewrite (count_none _ _ He). lia. }
  destruct Hm; try (apply HD; [repeat first [apply Forall_app_2|case_match|constructor]; done|by repeat case_match]); rewrite ?count_cons, ?count_one; cbn [says_to_server links_to].
  all: rewrite ?count_nil; psimpl.
  all: try match goal with |- context [<[?b := _]> (x_sv _) !! _] => destruct (decide (b = a)) | |- context [delete ?b (x_sv _) !! _] => destruct (decide (b = a)) end.
  all: subst; repeat case_bool_decide; subst; try done; rewrite ?lookup_insert, ?lookup_delete, ?lookup_insert_ne, ?lookup_delete_ne by done; cbn [swt] in *; try lia.
  - destruct H0 as [y E]. rewrite E in H. cbn in H. lia.
  - destruct H0 as [y E]. rewrite E in H. cbn in H. lia.
  - destruct H0 as [y E]. rewrite E in H. cbn in H. lia.
  - apply HD; [|done]. apply list.Forall_forall; intros x Hx; by apply H2 in Hx as (n & -> & _).
Qed.
Lemma reach_client_msgs D c s ev : reach D s ev -> (count (says_to_client c) ev + kwt (x_cl s !! c) <= 2 * count (asked_by c) ev)%nat.
Proof.
  apply (reach_inv D (fun s ev => (count (says_to_client c) ev + kwt (x_cl s !! c) <= 2 * count (asked_by c) ev)%nat)); [cbn; rewrite lookup_empty; cbn; lia|].
  clear s ev. intros s ev e s' _ H Hm. rewrite !count_app.
  assert (HD : Forall (fun x => says_to_client c x = false) e -> x_cl s' = x_cl s -> (count (says_to_client c) ev + count (says_to_client c) e + kwt (x_cl s' !! c) <= 2 * (count (asked_by c) ev + count (asked_by c) e))%nat).
  { intros He ->. rewrite (count_none _ _ He). lia. }
  destruct Hm; try (apply HD; [repeat first [apply Forall_app_2|case_match|constructor]; done|by repeat case_match]); rewrite ?count_cons, ?count_one; cbn [says_to_client asked_by].
  all: rewrite ?count_nil; psimpl.
  all: try match goal with |- context [<[?b := _]> (x_cl _) !! _] => destruct (decide (b = c)) | |- context [delete ?b (x_cl _) !! _] => destruct (decide (b = c)) end.
  all: subst; repeat case_bool_decide; subst; try done; rewrite ?lookup_insert, ?lookup_delete, ?lookup_insert_ne, ?lookup_delete_ne by done; cbn [kwt] in *; try lia.
  - apply HD; [|done]. apply list.Forall_forall; intros x Hx; by apply H2 in Hx as (n & -> & _).
  - rewrite H1 in H. cbn in H. lia.
  - rewrite H0 in H. cbn in H. lia.
Qed.

(** ** Counting by keys *)
Local Arguments count : simpl never.
Section occ.
Context {K : Type} `{!EqDecision K}.
Definition occ (k : K) (l : list K) : nat := count (fun x => bool_decide (x = k)) l.
Lemma count_split {A} (f : A -> bool) l : (length l = count f l + count (fun x => negb (f x)) l)%nat.
Proof. induction l as [|x l IH]; [done|]. rewrite !count_cons. cbn [length]. destruct (f x); cbn; lia. Qed.
Lemma occ_without k x l : occ k (filter (fun y => y <> x) l) = if decide (k = x) then 0%nat else occ k l.
Proof.
  induction l as [|y l IH]; [by case_decide|]. rewrite filter_cons. unfold occ in *. destruct (decide (y <> x)) as [H|H].
  - rewrite count_cons, IH. case_decide; subst; [by rewrite bool_decide_eq_false_2|]. by rewrite count_cons.
  - apply dec_stable in H as ->. rewrite IH. case_decide; [done|]. rewrite count_cons, bool_decide_eq_false_2 by done. done.
Qed.
Lemma length_without x l : (length l = occ x l + length (filter (fun y => y <> x) l))%nat.
Proof.
  induction l as [|y l IH]; [done|]. rewrite filter_cons. unfold occ in *. rewrite count_cons. cbn [length]. destruct (decide (y <> x)) as [H|H].
  - rewrite bool_decide_eq_false_2 by done. cbn. lia.
  - apply dec_stable in H as ->. rewrite bool_decide_eq_true_2 by done. lia.
Qed.
Lemma occ_le (m : nat) l1 l2 : (forall k, (occ k l1 <= m * occ k l2)%nat) -> (length l1 <= m * length l2)%nat.
Proof.
  remember (length l1) as n eqn:En. assert (length l1 <= n)%nat as Hn by lia. rewrite En. clear En. revert l1 l2 Hn.
  induction n as [|n IH]; intros l1 l2 Hn H; [lia|]. destruct l1 as [|x l]; [cbn; lia|].
  rewrite (length_without x), (length_without x l2). pose proof (H x) as Hx.
  assert (length (filter (fun y => y <> x) (x :: l)) <= m * length (filter (fun y => y <> x) l2))%nat; [|lia].
  apply IH.
  - rewrite filter_cons, decide_False by (intros Hf; by apply Hf). pose proof (length_without x l). cbn in Hn. lia.
  - intros k. rewrite !occ_without. case_decide; [lia|]. apply H.
Qed.
Lemma occ_omap {A} (g : A -> option K) k l : occ k (omap g l) = count (fun x => bool_decide (g x = Some k)) l.
Proof.
  unfold occ. induction l as [|x l IH]; [done|]. rewrite count_cons. cbn [omap list_omap]. destruct (g x) as [y|] eqn:E; cbn.
  - rewrite count_cons, IH. f_equal. repeat case_bool_decide; congruence.
  - by rewrite IH.
Qed.
Lemma length_omap {A} (g : A -> option K) l : length (omap g l) = count (fun x => bool_decide (is_Some (g x))) l.
Proof. induction l as [|x l IH]; [done|]. rewrite count_cons. cbn [omap list_omap]. destruct (g x) as [y|]; cbn; by rewrite IH. Qed.
Lemma count_ext {A} (f g : A -> bool) l : (forall x, f x = g x) -> count f l = count g l.
Proof. intros H. induction l as [|x l IH]; [done|]. by rewrite !count_cons, IH, H. Qed.
Lemma count_or {A} (f g : A -> bool) l : (forall x, f x = true -> g x = true -> False) -> count (fun x => f x || g x) l = (count f l + count g l)%nat.
Proof. intros H. induction l as [|x l IH]; [done|]. rewrite !count_cons, IH. specialize (H x). destruct (f x), (g x); cbn; try lia. Qed.
End occ.

(** ** The net *)
Definition of (n : N) (ev : list (N * aev)) : list aev := omap (fun '(m, x) => if decide (m = n) then Some x else None) ev.
Lemma of_app n ev e : of n (ev ++ e) = of n ev ++ of n e.
Proof. apply omap_app. Qed.
Lemma of_own n e : of n ((fun x => (n, x)) <$> e) = e.
Proof. unfold of. induction e as [|x e IH]; [done|]. cbn. rewrite decide_True by done. cbn. by f_equal. Qed.
Lemma of_other n m e : m <> n -> of n ((fun x => (m, x)) <$> e) = [].
Proof. intros Hne. unfold of. induction e as [|x e IH]; [done|]. cbn. rewrite decide_False by done. done. Qed.
Lemma count_of n f ev : count f (of n ev) = count (fun '(m, x) => bool_decide (m = n) && f x) ev.
Proof.
  unfold of. induction ev as [|[m x] ev IH]; [done|]. rewrite count_cons. cbn [omap list_omap]. case_decide.
  - subst. cbn. rewrite bool_decide_eq_true_2 by done. by rewrite count_cons, IH.
  - cbn. rewrite bool_decide_eq_false_2 by done. done.
Qed.
Definition says_to (d : N) (x : aev) : bool := says_to_server d x || says_to_client d x.
Definition req_msg (m : wmsg) : bool := match m with WLinkReq _ _ => true | _ => false end.
Lemma sent_length uid d e : length (sent uid d e) = count (says_to d) e.
Proof.
  induction e as [|x e IH]; [done|]. rewrite count_cons, <- IH. unfold sent. cbn [omap list_omap].
  destruct x; cbn; try done; unfold says_to; cbn; rewrite ?orb_false_r; case_bool_decide; done.
Qed.
Lemma sent_reqs uid d e : count req_msg (sent uid d e) = count (links_to d) e.
Proof.
  induction e as [|x e IH]; [done|]. rewrite count_cons, <- IH. unfold sent. cbn [omap list_omap].
  destruct x; cbn; try done; case_bool_decide; try done; by rewrite count_cons.
Qed.

Section net.
Context (cfg : N -> plug -> list uact) (ra : N) (unl : N -> bool).
Definition own_run (w : net) : Prop := forall n nd, w_act w !! n = Some nd -> exists l, run (astep (cfg n) ra (unl n)) ainit l = Ok (w_s nd, w_ev nd).
Definition of_run (w : net) (ev : list (N * aev)) : Prop := forall n, of n ev = trace w n.
Definition flow (w : net) (D : list (N * N)) : Prop := forall p n, (occ (p, n) D + length (w_ch w p n) = count (says_to n) (trace w p))%nat.
Definition reqs_of (w : net) (g : N -> N -> nat) : Prop := forall c s, (count (asked_by c) (trace w s) + g c s + count req_msg (w_ch w c s) <= count (links_to s) (trace w c))%nat.
Record NI (w : net) (ev : list (N * aev)) (D : list (N * N)) (g : N -> N -> nat) : Prop := {
  ni_own : own_run w; ni_ev : of_run w ev; ni_flow : flow w D; ni_reqs : reqs_of w g }.

Lemma NI_act w ev D g n nd o w' e' : NI w ev D g -> w_act w !! n = Some nd -> nact cfg ra unl w n nd o = Ok (w', e') ->
  (forall c r b, o = OLinkReq c r b -> (1 <= g c n)%nat) -> NI w' (ev ++ e') D (fun _ _ => 0%nat).
Proof.
  intros [H1 H2 H3 H4] Hn Ha Hg. unfold nact in Ha. destruct (astep (cfg n) ra (unl n) (w_s nd) o) as [[s' e]| |] eqn:Hs; cbn in Ha; [|done..]. injection Ha as <- <-.
  assert (Ht : forall m, trace (Net (<[n:=WNode s' (w_ev nd ++ e)]> (w_act w)) (fun p d => if bool_decide (p = n) then w_ch w p d ++ sent (w_uid w n) d e else w_ch w p d) (w_uid w)) m = if decide (m = n) then trace w n ++ e else trace w m).
  { intros m. unfold trace. cbn. case_decide; subst; [by rewrite lookup_insert, Hn|by rewrite lookup_insert_ne]. }
  split.
  - intros m md. cbn. destruct (decide (m = n)) as [->|Hne]; [rewrite lookup_insert|rewrite lookup_insert_ne by done; apply H1]. intros [= <-]. cbn.
    destruct (H1 n nd Hn) as [l Hl]. exists (l ++ [o]). rewrite run_app, Hl. cbn. rewrite Hs. cbn. by rewrite app_nil_r.
  - intros m. rewrite Ht, of_app. case_decide; [subst; by rewrite of_own, H2|]. rewrite of_other by done. by rewrite app_nil_r, H2.
  - intros p d. rewrite Ht. cbn [w_ch]. pose proof (H3 p d). case_bool_decide; subst.
    + rewrite decide_True by done. rewrite app_length, sent_length, count_app. lia.
    + rewrite decide_False by done. lia.
  - intros c d. rewrite !Ht. cbn [w_ch]. pose proof (H4 c d) as H4'.
    assert (Hd : (count (asked_by c) (if decide (d = n) then trace w n ++ e else trace w d) <= count (asked_by c) (trace w d) + g c d)%nat).
    { case_decide; [subst d|lia]. rewrite count_app.
      assert (forall l, count is_req l = 0%nat -> count (asked_by c) l = 0%nat) as Hz.
      { intros l Hl. pose proof (count_le (asked_by c) is_req l ltac:(intros []; cbn; try done)). lia. }
      destruct o as [| | | | |c' r b| | | | | |]; try (rewrite (Hz e); [lia|]; eapply astep_reqs; [|exact Hs]; done).
      destruct (astep_req _ _ _ _ _ _ _ _ _ Hs) as [->|(l & -> & Hl)]; [rewrite count_nil; lia|]. rewrite count_cons, (Hz l Hl). cbn [asked_by].
      case_bool_decide; [|lia]. subst c'. specialize (Hg c r b eq_refl). lia. }
    assert (Hc : (count req_msg (if bool_decide (c = n) then w_ch w c d ++ sent (w_uid w n) d e else w_ch w c d) + count (links_to d) (trace w c) = count req_msg (w_ch w c d) + count (links_to d) (if decide (c = n) then trace w n ++ e else trace w c))%nat).
    { case_bool_decide; subst; [rewrite decide_True by done|by rewrite decide_False]. rewrite !count_app, sent_reqs. lia. }
    lia.
Qed.
Lemma NI_take w ev D p n m l : NI w ev D (fun _ _ => 0%nat) -> w_ch w p n = m :: l -> NI (take_msg w p n m l) ev (D ++ [(p, n)]) (fun c s => if decide (c = p /\ s = n) then if req_msg m then 1%nat else 0%nat else 0%nat).
Proof.
  intros [H1 H2 H3 H4] Hch. split; [done|done| |].
  - intros a b. specialize (H3 a b). unfold occ in *. rewrite count_app, count_one. unfold trace in *. cbn [take_msg w_ch w_act]. unfold upd2. destruct (decide (a = p /\ b = n)) as [[-> ->]|E1].
    + rewrite !bool_decide_eq_true_2 by done. rewrite Hch in H3. cbn in *. lia.
    + rewrite (bool_decide_eq_false_2 (a = p /\ b = n)) by done. rewrite (bool_decide_eq_false_2 ((p, n) = (a, b))); [lia|]. intros [= <- <-]. by apply E1.
  - intros a b. specialize (H4 a b). unfold trace in *. cbn [take_msg w_ch w_act]. unfold upd2. case_bool_decide as E1.
    + rewrite decide_True by done. destruct E1 as [-> ->]. rewrite Hch, count_cons in H4. lia.
    + rewrite decide_False by done. lia.
Qed.
Lemma NI_weak w ev D g : NI w ev D g -> NI w ev D (fun _ _ => 0%nat).
Proof. intros [H1 H2 H3 H4]. split; try done. intros c s. specialize (H4 c s). lia. Qed.
Lemma NI_step w ev D o w' e : NI w ev D (fun _ _ => 0%nat) -> nstep cfg ra unl w o = Ok (w', e) -> NI w' (ev ++ e) (D ++ taken w o) (fun _ _ => 0%nat).
Proof.
  intros HN Hs. destruct o as [n|n o|p n]; cbn [nstep taken] in *.
  - rewrite app_nil_r. case_bool_decide as Hd; simplify_eq; rewrite app_nil_r; [done|].
    assert (Hno : w_act w !! n = None) by by apply eq_None_not_Some.
    assert (Ht : forall m, trace (Net (<[n:=WNode ainit []]> (w_act w)) (w_ch w) (w_uid w)) m = trace w m).
    { intros m. unfold trace. cbn. destruct (decide (m = n)) as [->|Hne]; [by rewrite lookup_insert, Hno|by rewrite lookup_insert_ne]. }
    destruct HN as [H1 H2 H3 H4]. split.
    + intros m md. cbn. destruct (decide (m = n)) as [->|Hne]; [rewrite lookup_insert|rewrite lookup_insert_ne by done; apply H1]. intros [= <-]. by exists [].
    + intros m. by rewrite Ht.
    + intros a b. rewrite Ht. apply H3.
    + intros a b. rewrite !Ht. apply H4.
  - rewrite app_nil_r. destruct (w_act w !! n) as [nd|] eqn:Hn; [|by simplify_eq; rewrite app_nil_r].
    destruct (plain (w_s nd) o) eqn:Hp; [|by simplify_eq; rewrite app_nil_r]. eapply NI_act; [exact HN|exact Hn|exact Hs|]. by intros c r b ->.
  - destruct (w_ch w p n) as [|m l] eqn:Hch; [simplify_eq; by rewrite !app_nil_r|]. pose proof (NI_take _ _ _ _ _ _ _ HN Hch) as HT.
    destruct (w_act w !! n) as [nd|] eqn:Hn; [|simplify_eq; rewrite app_nil_r; by eapply NI_weak].
    eapply NI_act; [exact HT|exact Hn|exact Hs|]. intros c r b Ho. destruct m; cbn in Ho; try done. injection Ho as -> -> ->. by rewrite decide_True.
Qed.
Lemma NI_run ops : forall w ev D w' e, NI w ev D (fun _ _ => 0%nat) -> run (nstep cfg ra unl) w ops = Ok (w', e) -> NI w' (ev ++ e) (D ++ deliveries cfg ra unl w ops) (fun _ _ => 0%nat).
Proof.
  induction ops as [|o ops IH]; intros w ev D w' e HN Hr; cbn [run deliveries] in *; [simplify_eq; by rewrite !app_nil_r|].
  destruct (nstep cfg ra unl w o) as [[w1 e1]| |] eqn:Hs; cbn in Hr; [|done..]. destruct (run (nstep cfg ra unl) w1 ops) as [[w2 e2]| |] eqn:Hr2; cbn in Hr; [|done..]. simplify_eq.
  rewrite !(assoc_L (++)). eapply IH; [|exact Hr2]. by eapply NI_step.
Qed.
Lemma NI_init : NI ninit [] [] (fun _ _ => 0%nat).
Proof. split; [by intros n nd ?|done|by intros p n|intros c s; exact (le_n 0)]. Qed.
Lemma net_NI ops w ev : run (nstep cfg ra unl) ninit ops = Ok (w, ev) -> NI w ev (deliveries cfg ra unl ninit ops) (fun _ _ => 0%nat).
Proof. intros H. by apply (NI_run ops ninit [] [] w ev NI_init). Qed.

Lemma own_reach w n : own_run w -> exists s, reach False s (trace w n).
Proof.
  intros H. unfold trace. destruct (w_act w !! n) as [nd|] eqn:E; [|exists ainit; constructor]. destruct (H n nd E) as [l Hl]. exists (w_s nd). by eapply arun_reach_any.
Qed.
(** Between a client and a server: at most four messages for each link. *)
Lemma pair_msgs w ev D c s : NI w ev D (fun _ _ => 0%nat) ->
  (count (says_to_server s) (trace w c) + count (says_to_client c) (trace w s) <= 4 * count (links_to s) (trace w c))%nat.
Proof.
  intros [H1 _ _ H4]. destruct (own_reach w c H1) as [sc Hc]. destruct (own_reach w s H1) as [ss Hs].
  pose proof (reach_server_msgs _ s _ _ Hc). pose proof (reach_client_msgs _ c _ _ Hs). specialize (H4 c s). cbn beta in H4. lia.
Qed.
Definition send_key (y : N * aev) : option (N * N) :=
  let '(n, x) := y in match x with EvLink d _ _ | EvNotify d | EvUnlinkReply d | EvLinkAns d _ _ | EvUnlinkReq d _ => Some (n, d) | _ => None end.
Definition pair_key (y : N * aev) : option (N * N) :=
  let '(n, x) := y in match x with EvLink d _ _ | EvNotify d | EvUnlinkReply d => Some (n, d) | EvLinkAns d _ _ | EvUnlinkReq d _ => Some (d, n) | _ => None end.
Definition link_key (y : N * aev) : option (N * N) := let '(n, x) := y in match x with EvLink d _ _ => Some (n, d) | _ => None end.
Ltac bd := unfold says_to; cbn [send_key pair_key link_key says_to_server says_to_client links_to]; rewrite ?andb_false_r, ?orb_false_r, ?andb_false_r; cbn [orb]; first [reflexivity | apply bool_decide_eq_false_2; done | rewrite <- bool_decide_and; apply bool_decide_ext; naive_solver].
Lemma net_msgs w ev D : NI w ev D (fun _ _ => 0%nat) -> (length D <= count (fun y => says y.2) ev <= 4 * count (fun y => is_link y.2) ev)%nat.
Proof.
  intros HN. split.
  - transitivity (length (omap send_key ev)).
    + rewrite <- (Nat.mul_1_l (length (omap send_key ev))). apply occ_le. intros [p n]. rewrite occ_omap. pose proof (ni_flow _ _ _ _ HN p n) as HF.
      rewrite <- (ni_ev _ _ _ _ HN p), count_of in HF.
      erewrite (count_ext _ (fun '(m, x) => bool_decide (m = p) && says_to n x) ev); [lia|]. intros [m x]. destruct x; bd.
    + rewrite length_omap. apply count_le. intros [n x]. by destruct x.
  - transitivity (length (omap pair_key ev)).
    + rewrite length_omap. apply count_le. intros [n x]. by destruct x.
    + transitivity (4 * length (omap link_key ev))%nat.
      2: { apply Nat.mul_le_mono_l. rewrite length_omap. apply count_le. intros [n x]. by destruct x. }
      apply occ_le. intros [c s]. rewrite !occ_omap. pose proof (pair_msgs w ev D c s HN) as HP. rewrite <- !(ni_ev _ _ _ _ HN), !count_of in HP.
      rewrite <- count_or in HP.
      2: { intros [m x]. destruct x; cbn; rewrite ?andb_false_r; naive_solver. }
      erewrite (count_ext (fun x => bool_decide (link_key x = Some (c, s))) (fun '(m, x) => bool_decide (m = c) && links_to s x)).
      2: { intros [m x]. destruct x; bd. }
      etrans; [|exact HP]. apply Nat.eq_le_incl, count_ext. intros [m x]. destruct x; bd.
Qed.
End net.
