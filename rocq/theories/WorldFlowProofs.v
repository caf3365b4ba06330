(** C72: the messages of a world. *)
From stdpp Require Import base list gmap.
From Verif Require Import Base Prog StateModel ChildMgrModel FamilyModel FlowSpec FlowInv TreeModel FlowTreeSpec FlowTreeProofs ActorModel NetModel CostSpec CostNet CostProofs SystemModel WorldModel WorldFlowSpec.
Local Open Scope nat_scope.

(** ** An actor calls do_shutdown only when a server asks it to unlink *)
Definition shy {A} (m : prog astore aev A) : Prop := forall s s' e a, m s = Ok (s', e, a) -> count is_do e = 0.
Lemma shy_ret {A} (a : A) : shy (ret a).
Proof. by intros s s' e a' [= <- <- <-]. Qed.
Lemma shy_bnd {A B} (m : prog astore aev A) (f : A -> prog astore aev B) : shy m -> (forall a, shy (f a)) -> shy (bnd m f).
Proof.
  intros H1 H2 s s' e b. unfold bnd. destruct (m s) as [[[s1 e1] a]| |] eqn:E1; [|done..]. destruct (f a s1) as [[[s2 e2] b2]| |] eqn:E2; [|done..].
  intros [= <- <- <-]. unfold count. rewrite filter_app, app_length. apply H1 in E1. apply H2 in E2. unfold count in *. lia.
Qed.
Lemma shy_get : shy get.
Proof. by intros s s' e a' [= <- <- <-]. Qed.
Lemma shy_modify f : shy (modify f).
Proof. by intros s s' e a' [= <- <- <-]. Qed.
Lemma shy_emit x : is_do x = false -> shy (emit x).
Proof. intros H s s' e a' [= <- <- <-]. unfold count. rewrite filter_cons_False by (by rewrite H). done. Qed.
Lemma shy_check b : shy (check b).
Proof. intros s s' e a'. unfold check. destruct b; [|done]. by intros [= <- <- <-]. Qed.
Lemma shy_crash {A} : @shy A crash.
Proof. done. Qed.
Lemma shy_skip : shy skip.
Proof. apply shy_ret. Qed.
Lemma shy_when b m : shy m -> shy (when b m).
Proof. destruct b; [done|intros _; apply shy_ret]. Qed.
Lemma shy_each {A} (l : list A) f : (forall x, shy (f x)) -> shy (each l f).
Proof. intros H. induction l as [|x l IH]; [apply shy_ret|]. by apply shy_bnd. Qed.
Create HintDb shydb.
#[local] Hint Resolve shy_ret shy_get shy_modify shy_check shy_crash shy_skip : shydb.
Ltac shy1 :=
  match goal with
  | |- forall _, _ => intros ?
  | |- shy (bnd _ _) => apply shy_bnd
  | |- shy (when _ _) => apply shy_when
  | |- shy (each _ _) => apply shy_each
  | |- shy (emit _) => apply shy_emit; solve [done | by case_match]
  | |- shy (if ?b then _ else _) => destruct b
  | |- shy (match ?x with _ => _ end) => destruct x
  | |- shy _ => solve [auto with shydb nocore]
  end.
Ltac shy := repeat shy1.
Section actor.
Context (cfg : plug -> list uact) (ra : N) (unl : bool).
Lemma shy_link a p cb : shy (link a p cb).
Proof. unfold link, request, reaction_init. shy. Qed.
#[local] Hint Resolve shy_link : shydb.
Lemma shy_act u : shy (act ra u).
Proof. unfold act, register_name, discover_name, link_registry, acquire, release, reaction_init, reaction_down. shy. Qed.
#[local] Hint Resolve shy_act : shydb.
Lemma shy_configure p : shy (configure_once cfg ra p).
Proof. unfold configure_once, configure. shy. Qed.
#[local] Hint Resolve shy_configure : shydb.
Lemma shy_handle_init p : shy (handle_init cfg ra p).
Proof. unfold handle_init, reaction_init. shy. Qed.
#[local] Hint Resolve shy_handle_init : shydb.
Lemma shy_state x : shy (set_state x).
Proof. unfold set_state. shy. Qed.
#[local] Hint Resolve shy_state : shydb.
Lemma shy_init_loop l : shy (init_loop cfg ra l).
Proof. induction l as [|p l IH]; cbn [init_loop]; unfold init_finish, reaction_init; shy. Qed.
#[local] Hint Resolve shy_init_loop : shydb.
Lemma shy_init_continue : shy (init_continue cfg ra).
Proof. unfold init_continue. shy. Qed.
#[local] Hint Resolve shy_init_continue : shydb.
Lemma shy_notify : shy notify_shutdown.
Proof. unfold notify_shutdown, notify_client, request. shy. Qed.
#[local] Hint Resolve shy_notify : shydb.
Lemma shy_forget_all l : shy (forget_all unl l).
Proof. induction l as [|a l IH]; cbn [forget_all]; unfold forget_one; shy. Qed.
#[local] Hint Resolve shy_forget_all : shydb.
Lemma shy_forget : shy (forget_links unl).
Proof. unfold forget_links. shy. Qed.
#[local] Hint Resolve shy_forget : shydb.
Lemma shy_discard id : shy (discard_request id).
Proof. unfold discard_request. shy. Qed.
#[local] Hint Resolve shy_discard : shydb.
Lemma shy_handle_shutdown p : shy (handle_shutdown unl p).
Proof. unfold handle_shutdown, registry_shutdown, client_shutdown, leave_server, cancel_task. shy. Qed.
#[local] Hint Resolve shy_handle_shutdown : shydb.
Lemma shy_shutdown_loop l : shy (shutdown_loop unl l).
Proof. induction l as [|p l IH]; cbn [shutdown_loop]; unfold shutdown_finish, reaction_down; shy. Qed.
#[local] Hint Resolve shy_shutdown_loop : shydb.
Lemma shy_shutdown_continue : shy (shutdown_continue unl).
Proof. unfold shutdown_continue. shy. Qed.
#[local] Hint Resolve shy_shutdown_continue : shydb.
Lemma shy_post n ok : shy (post_discovery cfg ra unl n ok).
Proof. unfold post_discovery, continue_init. shy. Qed.
#[local] Hint Resolve shy_post : shydb.
Lemma shy_respond q r : shy (respond cfg ra unl q r).
Proof.
  unfold respond, on_link_response, call_back, on_link, on_task_link, do_discover, on_registration, on_discovery, on_unlink_response, down_resume, continue_init, request. shy.
Qed.
#[local] Hint Resolve shy_respond : shydb.
Lemma shy_live o : (forall a, o <> OUnlinkReq a) -> shy (astep_live cfg ra unl o).
Proof.
  intros Ho. destruct o; cbn [astep_live]; try (exfalso; by eapply Ho);
    unfold user, resume, on_link_request, on_unlink_notify, down_resume, answer_pending; shy.
Qed.
Lemma actor_shy s o s' e : (forall a, o <> OUnlinkReq a) -> astep cfg ra unl s o = Ok (s', e) -> count is_do e = 0.
Proof.
  intros Ho. assert (H : shy (aprog cfg ra unl o)) by (pose proof (shy_live o Ho); unfold aprog; shy; done).
  unfold astep, to_step. destruct (aprog cfg ra unl o s) as [[[s1 e1] a]| |] eqn:E; [|done..]. intros [= <- <-]. by eapply H.
Qed.
(** At most once. *)
Definition once {A} (m : prog astore aev A) : Prop := forall s s' e a, m s = Ok (s', e, a) -> count is_do e <= 1.
Lemma once_shy {A} (m : prog astore aev A) : shy m -> once m.
Proof. intros H s s' e a E. apply H in E. lia. Qed.
Lemma once_bnd {A B} (m : prog astore aev A) (f : A -> prog astore aev B) : shy m -> (forall a, once (f a)) -> once (bnd m f).
Proof.
  intros H1 H2 s s' e b. unfold bnd. destruct (m s) as [[[s1 e1] a]| |] eqn:E1; [|done..]. destruct (f a s1) as [[[s2 e2] b2]| |] eqn:E2; [|done..].
  intros [= <- <- <-]. unfold count. rewrite filter_app, app_length. apply H1 in E1. apply H2 in E2. unfold count in *. lia.
Qed.
Lemma actor_once s o s' e : astep cfg ra unl s o = Ok (s', e) -> count is_do e <= 1.
Proof.
  intros E. assert (HC : (exists a, o = OUnlinkReq a) \/ (forall a, o <> OUnlinkReq a)) by (destruct o; eauto; by right). destruct HC as [[a ->]|Ho].
  - revert E. unfold astep, to_step. destruct (aprog cfg ra unl (OUnlinkReq a) s) as [[[s1 e1] u]| |] eqn:E; [|done..]. intros [= <- <-]. revert E.
    assert (H : once (aprog cfg ra unl (OUnlinkReq a))); [|apply H].
    unfold aprog. apply once_bnd; [shy|]. intros s0. case_bool_decide; [apply once_shy; shy|]. cbn [astep_live]. unfold forget_link.
    apply once_bnd; [shy|]. intros s2. destruct (x_sv s2 !! a) as [x|]; [|apply once_shy; shy]. apply once_bnd; [shy|]. intros _. apply once_bnd; [shy|]. intros b. apply once_bnd; [shy|]. intros s3.
    destruct b; cbn [when]; [|apply once_shy; shy]. case_bool_decide; [apply once_shy; shy|]. intros ? ? ? ? [= <- <- <-]. done.
  - rewrite (actor_shy s o s' e); [lia|done|done].
Qed.
End actor.

Definition do_at (y : N * aev) : bool := is_do y.2.
Lemma count_at n e : count do_at ((fun x => (n, x)) <$> e) = count is_do e.
Proof. induction e as [|x e IH]; [done|]. rewrite fmap_cons, !count_cons, IH. done. Qed.
Section net.
Context (cfg : N -> plug -> list uact) (ra : N) (unl : N -> bool).
Lemma net_once w o w' e : nstep cfg ra unl w o = Ok (w', e) -> count do_at e <= length (taken w o).
Proof.
  assert (Ha : forall w n nd o w' e, nact cfg ra unl w n nd o = Ok (w', e) -> count do_at e <= 1 /\ ((forall a, o <> OUnlinkReq a) -> count do_at e = 0)).
  { intros w0 n nd o0 w0' e0. unfold nact. destruct (astep (cfg n) ra (unl n) (w_s nd) o0) as [[s e1]| |] eqn:E; [|done..]. cbn. intros [= _ <-]. rewrite count_at.
    split; [by eapply actor_once|intros Ho; by eapply actor_shy]. }
  destruct o as [n|n o|p n]; cbn [nstep taken].
  - case_bool_decide; intros [= _ <-]; cbn; lia.
  - destruct (w_act w !! n) as [nd|]; [|intros [= _ <-]; done]. destruct (plain (w_s nd) o) eqn:Hp; [|intros [= _ <-]; done].
    intros H. apply Ha in H as [_ H]. rewrite H; [cbn; lia|]. intros a ->. done.
  - destruct (w_ch w p n) as [|m l]; [intros [= _ <-]; done|]. destruct (w_act w !! n) as [nd|]; [|intros [= _ <-]; cbn; lia]. intros H. apply Ha in H as [H _]. done.
Qed.
Lemma net_quiet l w w' e : run (nstep cfg ra unl) w (NNew <$> l) = Ok (w', e) -> e = [].
Proof.
  revert w w' e. induction l as [|n l IH]; intros w w' e H; cbn [fmap list_fmap run] in H; [by injection H|].
  cbn [nstep] in H. case_bool_decide; cbn in H; (destruct (run _ _ (NNew <$> l)) as [[w2 e2]| |] eqn:E; [|done..]); cbn in H; injection H as _ <-; by eapply IH.
Qed.
End net.

(** ** Births in the tree *)
Section tree.
Context (pol : list N -> spolicy) (sync : list N -> bool).
Notation tstep := (tstep pol sync).
Lemma local_born t n o t' e : TreeModel.local pol sync t n o = Ok (t', e) -> tborn t' = tborn t + FlowSpec.births e.
Proof.
  unfold TreeModel.local. destruct (t !! n) as [nd|] eqn:En; [|intros [= <- <-]; cbn; lia]. destruct (TreeModel.nstep pol sync n (n_fam nd) o) as [[s e1]| |]; [|done..]. cbn. intros [= <- <-].
  pose proof (t_upd (fun _ nd => FlowSpec.births (n_ev nd)) t n nd (Node s (n_ops nd ++ [o]) (n_ev nd ++ e1)) En) as H. cbn beta in H. cbn [n_ev] in H. rewrite births_app in H. unfold tborn. lia.
Qed.
Lemma upcalls_born n l : forall t t', upcalls pol sync t n l = Ok t' -> tborn t <= tborn t' /\ tsups t' = tsups t.
Proof.
  induction l as [|x l IH]; intros t t' H; cbn [upcalls] in H; [injection H as <-; lia|].
  destruct (upcall pol sync t n x) as [[t1 e1]| |] eqn:E; [|done..]. cbn in H. apply IH in H as [H1 H2].
  assert (tborn t <= tborn t1 /\ tsups t1 = tsups t) as [H3 H4]; [|lia].
  unfold upcall in E. repeat (case_match; simplify_eq; try lia); pose proof (local_size _ _ _ _ _ _ _ E); apply local_born in E; lia.
Qed.
(** Whoever is born is counted, and a new supervisor takes a place of its own. *)
Definition attaches (o : top) : nat := match o with TAttach _ _ => 1 | _ => 0 end.
Definition native (o : top) (e : list cevent) : nat := match o with TOp _ _ => FlowSpec.births e | _ => 0 end.
Lemma tstep_born t o t' e : tstep t o = Ok (t', e) -> tborn t + native o e <= tborn t' /\ tsups t' <= tsups t + attaches o.
Proof.
  intros H.
  assert (Hboth : forall n c oc on, both pol sync t n c oc on = Ok (t', e) -> tborn t + 0 <= tborn t' /\ tsups t' <= tsups t + 0).
  { intros n c oc on Hb. unfold both in Hb. destruct (TreeModel.local pol sync t (c :: n) oc) as [[t1 e1]| |] eqn:E1; [|done..]. cbn in Hb.
    pose proof (local_size _ _ _ _ _ _ _ E1). pose proof (local_size _ _ _ _ _ _ _ Hb). apply local_born in E1, Hb. lia. }
  assert (Hno : forall e1 k, Ok (t, e1) = Ok (t', e) -> tborn t + 0 <= tborn t' /\ tsups t' <= tsups t + k) by (intros e1 k [= <- <-]; lia).
  destruct o as [n o|n c|n c|n c|n c]; cbn [TreeModel.tstep native attaches] in *.
  - destruct (t !! n) as [nd|]; [|injection H as <- <-; cbn; lia]. destruct (_ || _); [injection H as <- <-; cbn; lia|].
    destruct (TreeModel.local pol sync t n o) as [[t1 e1]| |] eqn:E1; [|done..]. cbn in H.
    assert (Hd : forall t2 e2, (match downcall (n_fam nd) o with Some (c, oc) => TreeModel.local pol sync t1 (c :: n) oc | None => Ok (t1, []) end) = Ok (t2, e2) -> tborn t1 <= tborn t2 /\ tsups t2 = tsups t1).
    { intros t2 e2. destruct (downcall (n_fam nd) o) as [[c oc]|]; [|intros [= <- <-]; lia]. intros E. pose proof (local_size _ _ _ _ _ _ _ E). apply local_born in E. lia. }
    destruct (match downcall (n_fam nd) o with Some (c, oc) => TreeModel.local pol sync t1 (c :: n) oc | None => Ok (t1, []) end) as [[t2 e2]| |]; [|done..]. cbn in H. destruct (Hd _ _ eq_refl) as [H2 D2].
    destruct (upcalls pol sync t2 n e1) as [t3| |] eqn:E3; [|done..]. cbn in H. injection H as <- <-. pose proof (local_size _ _ _ _ _ _ _ E1). apply local_born in E1. apply upcalls_born in E3. lia.
  - destruct (t !! n) as [nd|] eqn:En; [|by eapply Hno]. destruct (t !! (c :: n)) as [m|] eqn:Ec; [by eapply Hno|].
    destruct (child_ready (n_fam nd) c AInitializing) as [ch|]; [|by eapply Hno]. destruct (_ || _); [by eapply Hno|]. injection H as <- <-.
    unfold tborn, tsups. rewrite !(t_new _ _ _ _ Ec). cbn [n_ev]. cbn. lia.
  - destruct (t !! (c :: n)); [|by eapply Hno]. destruct (ready _ _); [by eapply Hboth|by eapply Hno].
  - destruct (t !! (c :: n)); [by eapply Hboth|by eapply Hno].
  - destruct (t !! n); [|by eapply Hno]. destruct (t !! (c :: n)); [|by eapply Hno]. case_decide; [by eapply Hboth|by eapply Hno].
Qed.
Lemma trun_born ops : forall t t' e, run tstep t ops = Ok (t', e) -> tborn t <= tborn t' /\ tsups t' <= tsups t + sum_list_with attaches ops.
Proof.
  induction ops as [|o ops IH]; intros t t' e H; cbn [run sum_list_with] in *; [injection H as <- <-; lia|].
  destruct (tstep t o) as [[t1 e1]| |] eqn:E; cbn in H; [|done..]. destruct (run tstep t1 ops) as [[t2 e2]| |] eqn:E2; cbn in H; [|done..]. injection H as <- <-.
  apply tstep_born in E. apply IH in E2. lia.
Qed.
Lemma tmoves_app ops ops' t t1 e1 : run tstep t ops = Ok (t1, e1) -> tmoves pol sync t (ops ++ ops') = tmoves pol sync t ops + tmoves pol sync t1 ops'.
Proof.
  revert t t1 e1. induction ops as [|o ops IH]; intros t t1 e1 H; cbn [run tmoves app] in *; [by injection H as <- <-|].
  destruct (tstep t o) as [[t2 e2]| |] eqn:E; cbn in H; [|done..]. destruct (run tstep t2 ops) as [[t3 e3]| |] eqn:E2; cbn in H; [|done..]. injection H as <- <-. rewrite (IH _ _ _ E2). lia.
Qed.
End tree.

(** ** The world *)
Lemma born_length e : length (born e) = FlowSpec.births e.
Proof. unfold FlowSpec.births. induction e as [|x e IH]; [done|]. unfold born in *. destruct x; cbn [omap list_omap List.filter is_created length]; try exact IH. f_equal. exact IH. Qed.
Lemma sum_app {A} (f : A -> nat) l l' : sum_list_with f (l ++ l') = sum_list_with f l + sum_list_with f l'.
Proof. induction l as [|x l IH]; cbn; lia. Qed.
Lemma sum_attach f n l : (forall c, f (TAttach n c) = 0) -> sum_list_with f (TAttach n <$> l) = 0.
Proof. intros H. induction l as [|x l IH]; cbn; [done|]. rewrite H. lia. Qed.
Lemma told_out k x o : told_op k x = Some o -> tout o = 2 * (if is_do x then 1 else 0) /\ toffspring o = 0 /\ tlimited o = true /\ attaches o = 0.
Proof.
  unfold told_op. destruct (whose k) as [[n c]|]; [|done]. destruct (tells c x) as [fo|] eqn:E; [|done]. intros [= <-].
  destruct x; cbn in E; try done; repeat (case_match; try done); by injection E as <-.
Qed.
Lemma told_outs e : sum_list_with tout (omap (fun '(k, x) => told_op k x) e) <= 2 * count do_at e /\
  sum_list_with toffspring (omap (fun '(k, x) => told_op k x) e) = 0 /\ forallb tlimited (omap (fun '(k, x) => told_op k x) e) = true /\ sum_list_with attaches (omap (fun '(k, x) => told_op k x) e) = 0.
Proof.
  induction e as [|[k x] e (I1 & I2 & I3 & I4)]; [done|]. rewrite count_cons. cbn [omap list_omap]. unfold do_at at 1. cbn [snd].
  destruct (told_op k x) as [o|] eqn:E; [|split_and!; try done; lia]. apply told_out in E as (H1 & H2 & H3 & H4). cbn [sum_list_with forallb]. rewrite H3. cbn. split_and!; try done; lia.
Qed.

Section world.
Context (pol : list N -> spolicy) (sync : list N -> bool) (sup_at : list N -> N -> bool).
Context (cfg : N -> plug -> list uact) (ra : N) (unl : N -> bool) (K : nat).
Hypothesis HK : forall k, config_size (cfg k) <= K.
Notation zs := (zstep pol sync sup_at cfg ra unl).
Notation tst := (tstep pol sync).
Notation nst := (NetModel.nstep cfg ra unl).

(** [z] becomes [z'] by the operations [tops] of the tree and [nops] of the net. *)
Record split (z z' : world) (e : list (N * aev)) (m out cr off : nat) (lim : bool) (tops : list top) (nops : list nop) : Prop := {
  sp_t : exists tev, run tst (z_t z) tops = Ok (z_t z', tev);
  sp_w : run nst (z_w z) nops = Ok (z_w z', e);
  sp_moves : m <= tmoves pol sync (z_t z) tops + length (deliveries cfg ra unl (z_w z) nops);
  sp_out : sum_list_with tout tops <= out + 2 * count do_at e;
  sp_do : count do_at e <= length (deliveries cfg ra unl (z_w z) nops);
  sp_cost : sum_list_with (ncost cfg) nops + K * tborn (z_t z) <= cr + K * tborn (z_t z');
  sp_sups : tsups (z_t z') + tborn (z_t z) <= tsups (z_t z) + tborn (z_t z');
  sp_off : sum_list_with toffspring tops = off;
  sp_lim : lim = true -> forallb tlimited tops = true
}.
Lemma split_nil z : split z z [] 0 0 0 0 true [] [].
Proof. split; cbn; eauto; lia. Qed.
Lemma split_app z z1 z2 e1 e2 m1 m2 o1 o2 c1 c2 f1 f2 l1 l2 t1 t2 n1 n2 : split z z1 e1 m1 o1 c1 f1 l1 t1 n1 -> split z1 z2 e2 m2 o2 c2 f2 l2 t2 n2 ->
  split z z2 (e1 ++ e2) (m1 + m2) (o1 + o2) (c1 + c2) (f1 + f2) (l1 && l2) (t1 ++ t2) (n1 ++ n2).
Proof.
  intros [[tev1 A1] A2 A3 A4 A5 A6 A7 A8 A9] [[tev2 B1] B2 B3 B4 B5 B6 B7 B8 B9].
  pose proof (tmoves_app pol sync t1 t2 _ _ _ A1) as HT. pose proof (deliveries_app cfg ra unl n1 n2 _ _ _ A2) as HD.
  assert (HC : count do_at (e1 ++ e2) = count do_at e1 + count do_at e2) by (unfold count; by rewrite filter_app, app_length).
  split; rewrite ?HT, ?HD, ?HC, ?sum_app, ?app_length; try lia.
  - exists (tev1 ++ tev2). rewrite run_app, A1. cbn. by rewrite B1.
  - rewrite run_app, A2. cbn. by rewrite B2.
  - intros [H1 H2]%andb_true_iff. rewrite forallb_app. rewrite A9, B9 by done. done.
Qed.
Lemma split_weak z z' e m m' o o' c c' f l l' t n : split z z' e m o c f l t n -> m' <= m -> o <= o' -> c <= c' -> (l' = true -> l = true) -> split z z' e m' o' c' f l' t n.
Proof. intros [A1 A2 A3 A4 A5 A6 A7 A8 A9] ? ? ? ?. split; try done; try lia. auto. Qed.

Lemma act_split z o z' e : (forall n, o <> NNew n) -> zact pol sync cfg ra unl z o = Ok (z', e) -> exists tops nops, split z z' e (length (taken (z_w z) o)) 0 (ncredit o) 0 true tops nops.
Proof.
  intros Ho. unfold zact. destruct (nst (z_w z) o) as [[w e1]| |] eqn:E; cbn; [|done..]. destruct (run tst (z_t z) _) as [[t te]| |] eqn:Et; cbn; [|done..]. intros [= <- <-].
  exists (omap (fun '(k, x) => told_op k x) e1), [o]. destruct (told_outs e1) as (H1 & H2 & H3 & H4). pose proof (trun_born _ _ _ _ _ _ Et) as [H5 H6]. rewrite H4 in H6.
  assert (HD : deliveries cfg ra unl (z_w z) [o] = taken (z_w z) o) by (cbn; rewrite E; apply app_nil_r).
  split; rewrite ?HD; cbn [z_t z_w]; try done; try lia.
  - eauto.
  - cbn. rewrite E. cbn. by rewrite app_nil_r.
  - by eapply net_once.
  - cbn [sum_list_with]. assert (ncost cfg o = ncredit o) as -> by (destruct o; try done; by destruct (Ho n)). assert (K * tborn (z_t z) <= K * tborn t) by (by apply Nat.mul_le_mono_l). lia.
Qed.
(** A birth is paid for by the step before. *)
Lemma births_split z n l z' : births pol sync sup_at cfg ra unl z n l = Ok z' -> exists tops nops,
  (exists tev, run tst (z_t z) tops = Ok (z_t z', tev)) /\ run nst (z_w z) nops = Ok (z_w z', []) /\ sum_list_with tout tops = 0 /\ sum_list_with toffspring tops = 0 /\ forallb tlimited tops = true /\
  sum_list_with (ncost cfg) nops <= K * length l /\ tsups (z_t z') <= tsups (z_t z) + length l /\ tborn (z_t z) <= tborn (z_t z').
Proof.
  unfold births. destruct (run tst (z_t z) _) as [[t te]| |] eqn:Et; cbn; [|done..]. destruct (run nst (z_w z) _) as [[w we]| |] eqn:Ew; cbn; [|done..]. intros [= <-].
  pose proof (net_quiet _ _ _ _ _ _ _ Ew) as ->. exists (TAttach n <$> List.filter (sup_at n) l), (NNew <$> (who n <$> List.filter (fun c => negb (sup_at n c)) l)). cbn [z_t z_w].
  assert (HL : forall f : N -> bool, length (List.filter f l) <= length l) by (intros f; clear; induction l as [|x l IH]; cbn; [lia|]; destruct (f x); cbn; lia).
  pose proof (trun_born _ _ _ _ _ _ Et) as [H1 H2]. split_and!.
  - eauto.
  - done.
  - by apply sum_attach.
  - by apply sum_attach.
  - clear. induction (List.filter (sup_at n) l); [done|]. done.
  - specialize (HL (fun c => negb (sup_at n c))). transitivity (K * length (List.filter (fun c => negb (sup_at n c)) l)); [|by apply Nat.mul_le_mono_l].
    clear -HK. induction (List.filter _ l) as [|x r IH]; [cbn; lia|]. cbn [fmap list_fmap sum_list_with ncost length]. specialize (HK (who n x)). rewrite Nat.mul_succ_r. unfold fmap in *. lia.
  - specialize (HL (sup_at n)). assert (sum_list_with attaches (TAttach n <$> List.filter (sup_at n) l) = length (List.filter (sup_at n) l)) by (clear; induction (List.filter (sup_at n) l); cbn in *; lia). lia.
  - done.
Qed.
Lemma step_split z o z' e : zs z o = Ok (z', e) -> exists tops nops f, f <= zoffspring o /\ split z z' e (zmoved z o) (zout o) (zcredit o) f (zlimited o) tops nops.
Proof.
  assert (Hno : forall o, zmoved z o = 0 -> Ok (z, []) = Ok (z', e) -> exists tops nops f, f <= zoffspring o /\ split z z' e (zmoved z o) (zout o) (zcredit o) f (zlimited o) tops nops).
  { intros o0 Hm [= <- <-]. exists [], [], 0. split; [lia|]. eapply split_weak; [apply split_nil|lia..|done]. }
  destruct o as [o|o].
  - assert (Hplain : match o with TOp _ _ | TAttach _ _ => False | _ => True end -> rbind (tst (z_t z) o) (fun '(t, _) => Ok (World t (z_w z), [])) = Ok (z', e) ->
      exists tops nops f, f <= zoffspring (ZTree o) /\ split z z' e (zmoved z (ZTree o)) (zout (ZTree o)) (zcredit (ZTree o)) f (zlimited (ZTree o)) tops nops).
    { intros Ho H. destruct (tst (z_t z) o) as [[t te]| |] eqn:E; cbn in H; [|done..]. injection H as <- <-. exists [o], [], 0. split; [lia|].
      pose proof (tstep_born _ _ _ _ _ _ E) as [H1 H2]. assert (HM : K * tborn (z_t z) <= K * tborn t) by (apply Nat.mul_le_mono_l; lia).
      assert (HT : exists tev, run tst (z_t z) [o] = Ok (t, tev)) by (cbn [run]; rewrite E; cbn; eauto).
      assert (HO : zmoved z (ZTree o) = 0 /\ tout o = 0 /\ attaches o = 0 /\ toffspring o = 0) by (by destruct o). destruct HO as (O1 & O2 & O3 & O4).
      split; cbn [z_t z_w]; rewrite ?O1; try done; try (cbn; lia). intros Hl. cbn [forallb]. cbn in Hl. by rewrite Hl. }
    destruct o as [n fo|n c|n c|n c|n c]; [|by apply Hno|by apply Hplain..].
    cbn [zstep]. destruct (z_t z !! n) as [nd|] eqn:En; [|apply Hno; cbn; rewrite En; by destruct (by_child fo)]. destruct (by_child fo) eqn:Hb; [apply Hno; cbn; by rewrite Hb|].
    assert (Hz : zmoved z (ZTree (TOp n fo)) = tmoved (z_t z) (TOp n fo)) by (unfold zmoved; by rewrite Hb). rewrite Hz. clear Hno Hplain Hz.
    destruct (tst (z_t z) (TOp n fo)) as [[t ce]| |] eqn:E; cbn [rbind]; [|done..]. destruct (births pol sync sup_at cfg ra unl (World t (z_w z)) n (born ce)) as [z1| |] eqn:Eb; cbn [rbind]; [|done..].
    apply births_split in Eb as (bt & bn & [btev B1] & B2 & B3 & B4 & B5 & B6 & B7 & B8). cbn [z_t z_w] in *. rewrite born_length in *.
    pose proof (tstep_born _ _ _ _ _ _ E) as [T1 T2]. cbn [native attaches] in T1, T2.
    assert (H1 : split z z1 [] (tmoved (z_t z) (TOp n fo)) (tout (TOp n fo)) 0 (toffspring (TOp n fo)) (tlimited (TOp n fo)) (TOp n fo :: bt) bn).
    { assert (HM : K * tborn (z_t z) + K * FlowSpec.births ce <= K * tborn (z_t z1)) by (rewrite <- Nat.mul_add_distr_l; apply Nat.mul_le_mono_l; lia).
      split; try lia.
      - cbn [run]. rewrite E. cbn [rbind]. rewrite B1. cbn. eauto.
      - done.
      - cbn [tmoves]. lia.
      - cbn [sum_list_with]. rewrite B3. lia.
      - cbn. lia.
      - cbn [sum_list_with]. rewrite B4. lia.
      - intros Hl. cbn [forallb]. by rewrite Hl, B5. }
    assert (H2 : Ok (z1, []) = Ok (z', e) -> exists tops nops f, f <= zoffspring (ZTree (TOp n fo)) /\ split z z' e (tmoved (z_t z) (TOp n fo)) (zout (ZTree (TOp n fo))) (zcredit (ZTree (TOp n fo))) f (zlimited (ZTree (TOp n fo))) tops nops).
    { intros [= <- <-]. exists (TOp n fo :: bt), bn, (toffspring (TOp n fo)). split; [done|]. exact H1. }
    destruct (handed (n_fam nd) fo) as [[c a]|] eqn:Eh; [|done]. destruct (sup_at n c); [done|]. intros Ha.
    apply act_split in Ha as (tops & nops & Ha); [|done].
    assert (Hc : ncredit (NLocal (who n c) a) = 0). { unfold handed, at_actor in Eh. destruct fo; try done; repeat (case_match; simplify_eq; try done). }
    rewrite Hc in Ha. exists ((TOp n fo :: bt) ++ tops), (bn ++ nops), (toffspring (TOp n fo) + 0). split; [cbn; lia|]. change e with ([] ++ e). eapply split_weak; [exact (split_app _ _ _ _ _ _ _ _ _ _ _ _ _ _ _ _ _ _ _ H1 Ha)|cbn; lia..|]. cbn. intros ->. done.
  - cbn [zstep]. destruct (by_sup o) eqn:Hb.
    + apply Hno. cbn. by destruct o.
    + intros H. apply act_split in H as (tops & nops & H); [|by intros n ->]. exists tops, nops, 0. split; [done|exact H].
Qed.
Lemma run_split ops : forall z z' e, run zs z ops = Ok (z', e) -> exists tops nops f, f <= sum_list_with zoffspring ops /\
  split z z' e (zmoves pol sync sup_at cfg ra unl z ops) (sum_list_with zout ops) (sum_list_with zcredit ops) f (forallb zlimited ops) tops nops.
Proof.
  induction ops as [|o ops IH]; intros z z' e H; cbn [run zmoves sum_list_with forallb] in *.
  - injection H as <- <-. exists [], [], 0. split; [done|apply split_nil].
  - destruct (zs z o) as [[z1 e1]| |] eqn:E; cbn in H; [|done..]. destruct (run zs z1 ops) as [[z2 e2]| |] eqn:E2; cbn in H; [|done..]. injection H as <- <-.
    apply step_split in E as (t1 & n1 & f1 & F1 & S1). apply IH in E2 as (t2 & n2 & f2 & F2 & S2). exists (t1 ++ t2), (n1 ++ n2), (f1 + f2). split; [lia|]. by eapply split_app.
Qed.
Lemma world_total ops z ev : run zs zinit ops = Ok (z, ev) ->
  zmoves pol sync sup_at cfg ra unl zinit ops <= 40 + sum_list_with zout ops + 12 * sum_list_with zcredit ops + (64 + 12 * K) * tborn (z_t z) /\
  tsups (z_t z) <= 1 + tborn (z_t z) /\ count do_at ev <= 4 * (sum_list_with zcredit ops + K * tborn (z_t z)).
Proof.
  intros H. apply run_split in H as (tops & nops & f & _ & [[tev A1] A2 A3 A4 A5 A6 A7 _ _]). cbn [z_t z_w zinit] in *.
  apply tree_total in A1. apply net_bound in A2. assert (E1 : tborn tinit = 0) by (unfold tborn; by rewrite init_sum). assert (E2 : tsups tinit = 1) by (unfold tsups; by rewrite init_sum).
  rewrite E1 in *. rewrite E2 in *. rewrite Nat.mul_0_r in A6. rewrite Nat.mul_add_distr_r. assert (12 * K * tborn (z_t z) = 12 * (K * tborn (z_t z))) by (symmetry; apply Nat.mul_assoc). lia.
Qed.
Lemma world_limited ops z ev : forallb zlimited ops = true -> run zs zinit ops = Ok (z, ev) ->
  tborn (z_t z) <= sum_list_with zoffspring ops /\
  zmoves pol sync sup_at cfg ra unl zinit ops <= 40 + sum_list_with (fun o => zout o + 12 * zcredit o + (64 + 12 * K) * zoffspring o) ops.
Proof.
  intros Hl H. pose proof (world_total _ _ _ H) as (H1 & _). apply run_split in H as (tops & nops & f & Hf & [[tev A1] _ _ _ _ _ _ A8 A9]). cbn [z_t zinit] in *.
  apply tree_limited in A1; [|by apply A9]. assert (HB : tborn (z_t z) <= sum_list_with zoffspring ops) by lia. split; [done|].
  assert (E : sum_list_with (fun o => zout o + 12 * zcredit o + (64 + 12 * K) * zoffspring o) ops = sum_list_with zout ops + 12 * sum_list_with zcredit ops + (64 + 12 * K) * sum_list_with zoffspring ops)
    by (clear; induction ops as [|o ops IH]; cbn [sum_list_with]; lia).
  rewrite E. apply (Nat.mul_le_mono_l _ _ (64 + 12 * K)) in HB. lia.
Qed.
Lemma zmoves_app ops ops' z z1 e1 : run zs z ops = Ok (z1, e1) -> zmoves pol sync sup_at cfg ra unl z (ops ++ ops') = zmoves pol sync sup_at cfg ra unl z ops + zmoves pol sync sup_at cfg ra unl z1 ops'.
Proof.
  revert z z1 e1. induction ops as [|o ops IH]; intros z z1 e1 H; cbn [run zmoves app] in *; [by injection H as <- <-|].
  destruct (zs z o) as [[z2 e2]| |] eqn:E; cbn in H; [|done..]. destruct (run zs z2 ops) as [[z3 e3]| |] eqn:E2; cbn in H; [|done..]. injection H as <- <-. rewrite (IH _ _ _ E2). lia.
Qed.
Lemma world_stops ops z ev ops' z' ev' : run zs zinit ops = Ok (z, ev) -> run zs z ops' = Ok (z', ev') ->
  sum_list_with zout ops' = 0 -> sum_list_with zcredit ops' = 0 -> tborn (z_t z') = tborn (z_t z) ->
  zmoves pol sync sup_at cfg ra unl z ops' + zmoves pol sync sup_at cfg ra unl zinit ops <= 40 + sum_list_with zout ops + 12 * sum_list_with zcredit ops + (64 + 12 * K) * tborn (z_t z).
Proof.
  intros H1 H2 O1 O2 HB. assert (Hr : run zs zinit (ops ++ ops') = Ok (z', ev ++ ev')) by (rewrite run_app, H1; cbn; by rewrite H2).
  pose proof (world_total _ _ _ Hr) as (H & _). rewrite (zmoves_app _ _ _ _ _ H1), !sum_app, HB, O1, O2 in H. lia.
Qed.
End world.
