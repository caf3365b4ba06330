(** Teardown: it comes to an end. *)
From stdpp Require Import base list gmap.
From Coq Require Import Sorting.Sorted.
From Verif Require Import Base Prog TeardownModel TeardownSpec TeardownProofs TeardownSteps TeardownRun.
Open Scope nat_scope.
Local Open Scope prog_scope.

(** Subscriptions which are not UNSUBSCRIBING count twice: each of them can still
    put one message to the queue. *)
Fixpoint fresh (l : list dinfo) : nat := match l with [] => 0 | i :: r => (if i_un i then 0 else 1) + fresh r end.
Definition weight (s : dstate) : nat := List.length (d_q s) + 2 * fresh (d_infos s).
Lemma fresh_insert l x i : l !! x = Some i -> i_un i = false -> S (fresh (<[x := DInfo (i_type i) (i_addr i) (i_owner i) true]> l)) = fresh l.
Proof.
  revert x. induction l as [|j l IH]; intros x Hx Hi; [done|]. destruct x as [|x]; cbn in Hx |- *.
  - inversion Hx; subst. by rewrite Hi.
  - specialize (IH x Hx Hi). rewrite <- IH. destruct (i_un j); reflexivity.
Qed.
Lemma fresh_le l : fresh l <= List.length l.
Proof. induction l as [|i l IH]; cbn; [done|]. destruct (i_un i); lia. Qed.

Section steps.
Context (n : nat) (base : nat -> nat) (ext : N -> bool) (su : setup n base ext).
Notation P := (prog dstate dev).
Notation isext := (isext ext).
Notation starter := (starter n).
Notation good := (good n ext).
Notation phA := (phAc n true).
Notation phB := (phB n).
Notation inv := (inv n ext).

Record low (L c : nat) (s : dstate) : Prop := Low {
  l_len : len s = L;
  l_pts : forall x, x ∈ d_points s -> x < L;
  l_own : forall p x, x ∈ d_own s p -> x < L;
  l_w : weight s <= c
}.
Lemma unsub_low L c x s ev : low L c s -> x < L -> wp false (unsubscribe_info ext x) (fun _ s' _ => low L c s') s ev.
Proof.
  intros H Hx. destruct H as [H1 H2 H3 H4]. unfold unsubscribe_info. wps; [|by split].
  apply negb_true_iff in H. split; cbn; [by rewrite insert_length|done|done|]. unfold weight in *. cbn. rewrite app_length. cbn.
  assert (Hs : d_infos s !! x = Some (info s x)). { unfold info. apply nth_lookup_Some with (d := dead) || idtac. rewrite <- H1 in Hx. apply lookup_lt_is_Some in Hx as [i Hi]. rewrite Hi. f_equal. symmetry. apply nth_lookup_Some. done. }
  pose proof (fresh_insert _ _ _ Hs H). lia.
Qed.
Ltac low := cbv beta in *; match goal with H : low _ _ _ |- low _ _ _ => destruct H; split; cbn; try done; try (unfold weight in *; cbn; done) end.
Lemma base_deact_low L c p s ev : low L c s -> wp false (base_deactivate ext p) (fun _ s' _ => low L c s') s ev.
Proof.
  intros H. unfold base_deactivate, commit_deactivation. wps; try by low.
  apply (wp_each false _ _ (fun s _ => low L c s)); [|done]. intros x s1 ev1 Hx Hs1. apply unsub_low; [done|]. rewrite elem_rev in Hx. exact (l_own _ _ _ H _ _ Hx).
Qed.
Lemma deact_low L c s ev : low L c s -> wp false (deactivate_plugins n ext) (fun _ s' _ => low L c s') s ev.
Proof.
  intros H. unfold deactivate_plugins. wps. apply (wp_each false _ _ (fun s _ => low L c s)); [|done].
  intros p s1 ev1 _ K1. wps; try by low. apply base_deact_low. by low.
Qed.
Lemma life_low L c s ev : low L c s -> wp false (lifetime_unsubscribe ext) (fun _ s' _ => low L c s') s ev.
Proof.
  intros H. unfold lifetime_unsubscribe. wps. eapply wp_call.
  - apply (wp_each false _ _ (fun s _ => low L c s)); [|done]. intros x s1 ev1 Hx K1. wps; [apply unsub_low; [done|]; rewrite elem_rev in Hx; exact (l_pts _ _ _ H _ Hx)|].
    destruct K1. split; cbn; try done. intros y [Hy _]%elem_erase. auto.
  - intros [] s1 ev1 K1. wps; [|done]. eapply wp_call; [by apply base_deact_low|]. intros [] s2 ev2 K2. wps. by low.
Qed.
Lemma cont_low L c s ev : low L c s -> wp false (shutdown_continue n ext) (fun _ s' _ => low L c s') s ev.
Proof.
  intros H. unfold shutdown_continue. apply wp_bnd, wp_get. wp1. destruct (d_hold s); [by wps|].
  eapply (wp_call _ _ _ (fun _ s' _ => low L c s')).
  - wps; [|done]. eapply wp_call; [by apply deact_low|]. intros [] s1 ev1 K1. wps. by low.
  - intros [] s1 ev1 K1. wp1. destruct (d_lshut s1).
    + eapply (wp_call _ _ _ (fun _ s' _ => low L c s')).
      * unfold lifetime_shutdown. wps; [done|]. eapply wp_call; [by apply life_low|]. intros [] s2 ev2 K2. by wps.
      * intros b s2 ev2 K2. unfold shutdown_finish. wps; [|done]. by low.
    + unfold shutdown_finish. wps. by low.
Qed.
Lemma own_low L c s p y : low L c s -> low L c (w_own s (updn (d_own s) p (erase y (d_own s p)))).
Proof. intros []. split; cbn; try done. intros q z. unfold updn. destruct (decide (q = p)); [intros [Hz _]%elem_erase|intros Hz]; by eapply l_own0. Qed.
Lemma map_low L c y s ev : low L c s -> wp false (forget_map ext y) (fun _ s' _ => low L c s') s ev.
Proof. intros H. unfold forget_map. wps; by low. Qed.
Lemma forget_low L c p x s ev : low L c s -> wp false (forget n ext p x) (fun _ s' _ => low L c s') s ev.
Proof.
  intros H. unfold forget. apply wp_bnd, wp_get. destruct (find_last _ _) as [y|]; [|by wps].
  wps. eapply wp_call; [by apply map_low|]. intros [] s1 ev1 K1. cbv beta in K1. apply (own_low _ _ _ p y) in K1. wp1. wp1.
  eapply (wp_call _ _ _ (fun _ s' _ => low L c s')); [|intros [] s2 ev2 K2; by wps]. unfold commit_deactivation. wps; [|by low|done].
  eapply wp_mono; [apply cont_low; by low|]. intros [] s2 ev2 K2. wps. by low.
Qed.
Lemma handle_low L c p x e s ev : low L c s -> wp false (handle_unsubscription n ext p x e) (fun _ s' _ => low L c s') s ev.
Proof.
  intros H. unfold handle_unsubscription, base_unsubscription. apply wp_bnd, wp_get. destruct (_ && _).
  - destruct (find_last _ _) as [y|]; [|done]. wps. eapply wp_call; [by apply map_low|]. intros [] s1 ev1 K1. wps.
    + eapply wp_mono; [apply base_deact_low|intros [] s2 ev2 K2; by wps]. destruct K1. split; cbn; try done. intros z [Hz _]%elem_erase. auto.
    + destruct K1. split; cbn; try done. intros z [Hz _]%elem_erase. auto.
  - destruct e; [|by apply forget_low]. wp1. eapply wp_call; [by apply forget_low|]. intros b s1 ev1 K1. cbv beta in K1. wps. by low.
Qed.
Lemma poll_low L c l x e s ev : low L c s -> wp false (poll n ext l x e) (fun _ s' _ => low L c s') s ev.
Proof.
  revert s ev. induction l as [|p l IH]; intros s ev H; cbn [poll]; [by wps|].
  eapply wp_call; [by apply handle_low|]. intros b s1 ev1 K1. wps; [done|by apply IH].
Qed.
Lemma deliver_low L c m s ev : low L c s -> wp false (deliver n ext m) (fun _ s' _ => low L c s') s ev.
Proof.
  intros H. unfold deliver. wp1. destruct m; cbn [on_call].
  - apply wp_when; [intros _; by apply poll_low|done].
  - apply wp_when; [intros _; by apply poll_low|done].
  - unfold on_call. by wps.
Qed.
(** Every delivery takes some weight. *)
Lemma step_weight s ev s' e : inv s ev -> d_q s <> [] -> dstep n ext s ODeliver = Ok (s', e) -> weight s' < weight s.
Proof.
  intros [G _] Hq. unfold dstep, to_step. cbn [dprog]. destruct (d_q s) as [|m r] eqn:E; [done|].
  assert (H0 : low (len s) (weight s - 1) (w_q s r)).
  { split; [done|apply (g_pts _ _ _ _ _ _ G)|intros p x Hx; apply (g_own _ _ _ _ _ _ G) in Hx; by eapply owner_lt|]. unfold weight. rewrite E. cbn. lia. }
  pose proof (deliver_low _ _ m (w_q s r) [] H0) as H. unfold wp in H. unfold bnd, get, modify. rewrite E. cbn -[deliver].
  destruct (deliver n ext m (w_q s r)) as [[[s1 e1] []]| |]; [|done..]. intros X. inversion X; subst. apply l_w in H.
  assert (0 < weight s); [|lia]. unfold weight. rewrite E. cbn. lia.
Qed.
(** While plugins are being deactivated, messages about it are under way. *)
Lemma phB_unsub s ev : good [] [] s ev -> phB [] [] s ev -> lastB s -> pending s <> [].
Proof.
  intros G B HL Hp.
  assert (Hno : forall x, live s x -> un s x = true -> False).
  { intros x H1 H2. assert (x ∈ [] ++ pending s) as H by by apply (g_msg _ _ _ _ _ _ G). rewrite Hp in H. by apply elem_of_nil in H. }
  pose proof (pb_ord _ _ _ _ _ B) as HO. rewrite Hp in HO. cbn [app] in HO.
  destruct HO as [(U0 & _)|[(_ & v & Hv & _)|[[_ Hv]|[_ Hv]]]]; [|destruct v; done|done|done].
  assert (Hpts : d_points s = []).
  { destruct (d_points s) as [|x l] eqn:E; [done|]. assert (x ∈ d_points s) as Hx by (rewrite E; left).
    destruct (pb_pts _ _ _ _ _ B _ Hx) as [Ho Hu]. exfalso. apply (Hno x); [|done]. unfold live. by rewrite Ho. }
  assert (Hd : d_deact s = {[lifetime]}).
  { apply set_eq. intros p. rewrite elem_of_singleton. split; [|intros ->; apply (pb_one _ _ _ _ _ B)]. intros Hin.
    destruct (decide (p = lifetime)) as [|Hne]; [done|]. destruct (pb_deact _ _ _ _ _ B _ Hin) as (_ & Ho & Hu). exfalso.
    destruct (d_own s p) as [|x l] eqn:E; [done|]. assert (x ∈ d_own s p) as Hx by (rewrite E; left).
    apply (Hno x); [by eapply own_live|]. apply Hu; [done|left]. }
  specialize (HL Hpts Hd). congruence.
Qed.
Lemma phB_pending s ev : good [] [] s ev -> phB [] [] s ev -> lastB s -> d_q s <> [].
Proof. intros G B L Hq. apply (phB_unsub _ _ G B L). unfold pending. by rewrite Hq. Qed.
(** So the deliveries finish the shutdown. *)
Lemma finish s ev : inv s ev -> d_st s = DShutting -> d_hold s = false ->
  exists k s' e, k <= weight s /\ run (dstep n ext) s (replicate k ODeliver) = Ok (s', e) /\ d_st s' = DDown /\ inv s' (ev ++ e).
Proof.
  intros I. remember (weight s) as w eqn:Hw. assert (Hle : weight s <= w) by lia. clear Hw. revert s ev I Hle.
  induction w as [|w IH]; intros s ev I Hle Hs Hh.
  - exfalso. destruct I as [G [A|[[B L]|C]]].
    + destruct (pa_st _ _ _ _ A) as [E|[_ E]]; [congruence|]. rewrite E in Hh by done. done.
    + apply (phB_pending _ _ G B L). unfold weight in Hle. destruct (d_q s); [done|cbn in Hle; lia].
    + rewrite (pc_st _ _ C) in Hs. done.
  - assert (Hq : d_q s <> []).
    { destruct I as [G [A|[[B L]|C]]]; [|by eapply phB_pending|rewrite (pc_st _ _ C) in Hs; done].
      destruct (pa_st _ _ _ _ A) as [E|[_ E]]; [congruence|]. rewrite E in Hh by done. done. }
    pose proof (dprog_ok n base ext su ODeliver s ev Logic.I I) as HP. unfold wp in HP.
    assert (exists s1 e1, dstep n ext s ODeliver = Ok (s1, e1) /\ inv s1 (ev ++ e1)) as (s1 & e1 & R1 & I1).
    { unfold dstep, to_step. destruct (dprog n ext ODeliver s) as [[[s1 e1] []]| |]; [|done..]. eauto. }
    pose proof (step_weight _ _ _ _ I Hq R1) as Hlt.
    assert (Hd : d_st s1 = DDown \/ d_st s1 = DShutting /\ d_hold s1 = false).
    { destruct I1 as [G1 [A|[[B L]|C]]]; [|right; split; [apply (pb_st _ _ _ _ _ B)|apply (pb_hold _ _ _ _ _ B)]|left; apply (pc_st _ _ C)].
      exfalso. destruct I as [G [A0|[[B L]|C]]].
      - destruct (pa_st _ _ _ _ A0) as [E|[_ E]]; [congruence|]. rewrite E in Hh by done. done.
      - destruct (pa_ev _ _ _ _ A) as [E _]. apply E. apply elem_of_app. left. apply (pb_ev _ _ _ _ _ B).
      - destruct (pa_ev _ _ _ _ A) as [E _]. apply E. apply elem_of_app. left. apply (pc_ev _ _ C). }
    destruct Hd as [Hd|[Hd1 Hd2]].
    + exists 1, s1, (e1 ++ []). split; [lia|]. cbn -[dstep]. rewrite R1. cbn. rewrite app_nil_r. done.
    + destruct (IH s1 (ev ++ e1) I1) as (k & s2 & e2 & Hk & R2 & D2 & I2); [lia|done|done|].
      exists (S k), s2, (e1 ++ e2). split; [lia|]. cbn [replicate run]. rewrite R1. cbn [rbind]. rewrite R2. cbn [rbind]. by rewrite (assoc_L (++)).
Qed.

(** ** What an unsubscription does. *)
Lemma only_marked x s ev : wp false (unsubscribe_info ext x) (fun _ _ ev' => forall y, EUnsubReq y ∈ ev' -> EUnsubReq y ∈ ev \/ y = x) s ev.
Proof. unfold unsubscribe_info. wps; [|auto]. intros y [Hy|Hy]%elem_snoc; [auto|]. inversion Hy. auto. Qed.
Lemma unsub_names t a s ev s' e : inv s ev -> dstep n ext s (OUnsubscribe t a) = Ok (s', e) ->
  forall x, EUnsubReq x ∈ e -> live s x /\ key s x = (HUser t, a).
Proof.
  intros I R x Hx. destruct (elem_of_list_lookup_1 _ _ Hx) as [k Hk].
  assert (Hnew : EUnsubReq x ∉ ev).
  { assert (I' : inv s' (ev ++ e)).
    { unfold dstep, to_step in R. destruct (dprog n ext (OUnsubscribe t a) s) as [[[s1 e1] []]| |] eqn:E; [|done..]. inversion R; subst.
      cbn [dprog] in E. pose proof (dprog_ok n base ext su (OUnsubscribe t a) s ev) as H. unfold wp in H. cbn [dprog] in H. rewrite E in H. apply H; [|done].
      split.
      - unfold unsubscribe, bnd, get in E. destruct (d_life s) eqn:HL; [done|]. done.
      - unfold unsubscribe, bnd, get in E. destruct (d_life s); [|done]. destruct (find_last _ _) as [y|] eqn:F; [|done].
        apply find_last_some in F as [F1 F2]. unfold known. apply existsb_exists. exists y. split; [by apply elem_of_list_In|done]. }
    destruct I' as [G' _]. pose proof (g_ord _ _ _ _ _ _ G' (List.length ev + k) (EUnsubReq x)) as HO. rewrite lookup_app_r in HO by lia.
    replace (List.length ev + k - List.length ev) with k in HO by lia. specialize (HO Hk). cbn in HO. rewrite take_app_ge in HO by lia. intros H. apply HO. apply elem_of_app. by left. }
  destruct I as [G _]. unfold dstep, to_step in R. cbn [dprog] in R. unfold unsubscribe in R.
  assert (W : wp false (s <- get ;; (if d_life s then skip else crash) ;; match find_last (fun y => matches (HUser t) a (info s y)) (d_points s) with Some x => unsubscribe_info ext x | None => check false end)
    (fun _ _ ev' => forall y, EUnsubReq y ∈ ev' -> EUnsubReq y ∈ ev \/ (y ∈ d_points s /\ matches (HUser t) a (info s y) = true)) s ev).
  { wps. destruct (find_last _ _) as [y|] eqn:F; [|by wps]. eapply wp_mono; [apply only_marked|]. cbv beta. intros _ _ ev' H z Hz. apply H in Hz as [?| ->]; [auto|right].
    by apply find_last_some in F. }
  unfold wp in W. destruct ((_ : P unit) s) as [[[s1 e1] []]| |] in R, W; [|done..]. inversion R; subst.
  destruct (W x) as [?|[H1 H2]]; [apply elem_of_app; by right|done|]. apply matches_spec in H2 as [H2 H3]. split; [|unfold key; by rewrite H2, H3].
  apply (g_dead _ _ _ _ _ _ G); [by apply (g_pts _ _ _ _ _ _ G)|]. destruct (un s x) eqn:E; [|done]. exfalso. apply Hnew. by apply (g_eu _ _ _ _ _ _ G).
Qed.
Lemma unsub_marks t a s ev s' e x : inv s ev -> dstep n ext s (OUnsubscribe t a) = Ok (s', e) -> live s x -> key s x = (HUser t, a) ->
  x ∈ pending s'.
Proof.
  intros I R Hl Hk. destruct I as [G Ph]. unfold dstep, to_step in R. cbn [dprog] in R.
  assert (W : wp false (unsubscribe ext (HUser t) a) (fun _ s' _ => x ∈ pending s') s ev).
  { unfold unsubscribe. apply wp_bnd, wp_get. wps.
    assert (Hx : forall z, z ∈ d_points s -> key s z = (HUser t, a) -> live s z -> z = x).
    { intros z _ Hz2 Hz3. apply (g_key _ _ _ _ _ _ G); [by left|by left|congruence]. }
    assert (Hu : un s x = true -> x ∈ pending s).
    { intros Hu. change (x ∈ [] ++ pending s). apply (g_msg _ _ _ _ _ _ G). done. }
    destruct (find_last _ _) as [y|] eqn:F; [|by wps]. assert (F' := F). apply find_last_some in F' as [F1 F2]. apply matches_spec in F2 as [F2 F3].
    destruct (un s x) eqn:Hux.
    - unfold unsubscribe_info. wps; [|auto]. unfold pending. cbn. rewrite omap_app. apply elem_of_app. left. by apply Hu.
    - assert (Hxp : x ∈ d_points s).
      { destruct Ph as [A|[[B L]|C]].
        - unfold live in Hl. destruct (owner s x) as [p|] eqn:E; [by eapply (pa_live _ _ _ _ A)|done].
        - exfalso. unfold live in Hl. destruct (owner s x) as [p|] eqn:E.
          + destruct (decide (p ∈ d_deact s)) as [Hp|Hp]; [|rewrite (pb_own _ _ _ _ _ B) in Hl by done; by apply elem_of_nil in Hl].
            destruct (decide (p = lifetime)) as [->|Hne].
            * apply (g_first _ _ _ _ _ _ G) in E as E'. apply (g_plug _ _ _ _ _ _ G) in E as [[Hs _]|(_ & k & E2)].
              -- pose proof (su_n _ _ _ su). unfold lifetime, TeardownModel.starter in Hs. lia.
              -- unfold key in Hk. rewrite E2 in Hk. done.
            * destruct (pb_deact _ _ _ _ _ B _ Hp) as (_ & _ & H). specialize (H Hne _ Hl). congruence.
          + apply (pb_pts _ _ _ _ _ B) in Hl as [_ Hl]. congruence.
        - exfalso. unfold live in Hl. destruct (owner s x); [rewrite (pc_own _ _ C) in Hl|rewrite (pc_points _ _ C) in Hl]; by apply elem_of_nil in Hl. }
      assert (x <= y) as Hle. { eapply find_last_max; [apply (g_sorted _ _ _ _ _ _ G)|done|done|]. apply matches_spec. unfold key in Hk. by inversion Hk. }
      assert (x = y) as <-. { destruct (decide (x = y)) as [|Hne]; [done|]. exfalso. apply (g_pkey _ _ _ _ _ _ G x y); try done; [|lia]. rewrite Hk. unfold key. by rewrite F2, F3. }
      unfold unsubscribe_info. apply wp_bnd, wp_get. rewrite Hux. cbn [negb when]. wps. unfold pending. cbn. rewrite omap_app. apply elem_of_app. right. cbn. destruct (ext _); left. }
  unfold wp in W. destruct (unsubscribe ext (HUser t) a s) as [[[s1 e1] []]| |]; [|done..]. by inversion R; subst.
Qed.

(** ** As long as nobody unsubscribes. *)
Definition none (ev : list dev) : Prop := forall j x, ev !! j = Some (EUnsubReq x) -> EDeact ∈ take j ev.
Lemma none_snoc ev e : none ev -> (forall x, e <> EUnsubReq x) -> none (ev ++ [e]).
Proof.
  intros H He j x Hj. apply lookup_app_Some in Hj as [Hj|[Hl Hj]].
  - rewrite take_app_le by (apply lookup_lt_Some in Hj; lia). by eapply H.
  - exfalso. apply list_lookup_singleton_Some in Hj as [_ Hj]. by apply (He x).
Qed.
Lemma none_after {A} (m : P A) s ev : EDeact ∈ ev -> none ev -> wp false m (fun _ _ => none) s ev.
Proof.
  intros H Hn. unfold wp. destruct (m s) as [[[s1 e1] a]| |]; [|done..]. intros j x Hj. apply lookup_app_Some in Hj as [Hj|[Hl Hj]].
  - rewrite take_app_le by (apply lookup_lt_Some in Hj; lia). by eapply Hn.
  - rewrite take_app_ge by lia. apply elem_of_app. by left.
Qed.
Lemma cont_none s ev : d_ishut s = true -> none ev -> wp false (shutdown_continue n ext) (fun _ _ => none) s ev.
Proof.
  intros Hi Hn. unfold shutdown_continue. apply wp_bnd, wp_get. wp1. destruct (d_hold s); [by wps|]. rewrite Hi. cbn [when]. unfold deactivate_plugins.
  wp1. wp1. wp1. apply none_after; [apply elem_snoc; by right|by apply none_snoc].
Qed.
Lemma calm_step o s ev : usage ext s o -> inv s ev -> (forall t a, o <> OUnsubscribe t a) -> none ev -> wp true (dprog n ext o) (fun _ s' ev' => inv s' ev' /\ none ev') s ev.
Proof.
  intros U I No Hn. apply wp_and; [by apply (dprog_ok n base ext su)|].
  destruct (decide (EDeact ∈ ev)) as [Hc|Hc]; [by apply none_after|].
  destruct I as [G Ph]. assert (Hu : forall x, un s x = false).
  { intros x. destruct (un s x) eqn:E; [|done]. exfalso. apply Hc. apply (g_eu _ _ _ _ _ _ G) in E. apply elem_of_list_lookup in E as [j E]. apply Hn in E.
    apply elem_of_list_lookup in E as [i E]. apply lookup_take_Some in E as [E _]. apply elem_of_list_lookup. eauto. }
  destruct Ph as [A|[[B L]|C]]; [|by destruct (pb_ev _ _ _ _ _ B)|by destruct (pc_ev _ _ C)].
  destruct o; cbn [dprog].
  - unfold subscribe. wps; by apply none_snoc.
  - unfold plug_subscribe, subscribe. wps; by apply none_snoc.
  - by destruct (No t a).
  - wps. apply cont_none; [apply (pa_ishut _ _ _ _ A)|done].
  - wps; [|done]. apply cont_none; [apply (pa_ishut _ _ _ _ A)|done].
  - wps. destruct (d_q s) as [|m r] eqn:Hq; [by wps|]. wps. destruct m as [x|x|x m].
    + exfalso. assert (live s x /\ un s x = true) as [_ Hx]; [|by rewrite Hu in Hx]. apply (g_msg _ _ _ _ _ _ G). unfold pending. rewrite Hq. left.
    + exfalso. assert (live s x /\ un s x = true) as [_ Hx]; [|by rewrite Hu in Hx]. apply (g_msg _ _ _ _ _ _ G). unfold pending. rewrite Hq. left.
    + unfold deliver, on_call. wps; by apply none_snoc.
  - wps. destruct (d_fq s) as [|m r]; [by wps|]. wps. destruct m; cbn [fdeliver]; [by wps| |by wps]. wps. destruct (find_last _ _); [|done]. wps. by apply none_snoc.
  - by wps.
  - wps; [by apply none_snoc|done].
Qed.
Lemma calm_run hold ops s ev : used n base ext hold ops -> ran n base ext hold ops s ev -> (forall t a, OUnsubscribe t a ∉ ops) -> none ev.
Proof.
  intros U R No. cut (forall ops s0 ev0 s1 e1, inv s0 ev0 /\ none ev0 -> guarded (dstep n ext) (usage ext) s0 ops -> (forall t a, OUnsubscribe t a ∉ ops) -> run (dstep n ext) s0 ops = Ok (s1, e1) -> inv s1 (ev0 ++ e1) /\ none (ev0 ++ e1)).
  { intros H. apply (H ops (dinit n base hold) [] s ev); try done. split; [by apply init_inv_ok|]. intros j x Hj. by rewrite lookup_nil in Hj. }
  clear hold ops s ev U R No. intros ops. induction ops as [|o ops IH]; intros s0 ev0 s1 e1 HI U No R.
  - cbn in R. inversion R; subst. by rewrite app_nil_r.
  - cbn [run guarded] in R, U. destruct U as [U1 U2]. destruct (dstep n ext s0 o) as [[s2 e2]| |] eqn:E; [|done..]. cbn [rbind] in R.
    destruct (run (dstep n ext) s2 ops) as [[s3 e3]| |] eqn:E3; [|done..]. cbn [rbind] in R. inversion R; subst. rewrite (assoc_L (++)).
    apply (IH s2); try done; [|intros t a H; apply (No t a); by right].
    assert (Ho : forall t a, o <> OUnsubscribe t a) by (intros t a ->; apply (No t a); left).
    pose proof (calm_step o s0 ev0 U1 (proj1 HI) Ho (proj2 HI)) as W. unfold wp in W. unfold dstep, to_step in E. destruct (dprog n ext o s0) as [[[s4 e4] []]| |]; [|done..]. by inversion E; subst.
Qed.

(** ** The other context, after the shutdown. *)
Lemma down_phC s ev : inv s ev -> d_st s = DDown -> phC s ev.
Proof.
  intros [G [A|[[B L]|C]]] Hs; [|rewrite (pb_st _ _ _ _ _ B) in Hs; done|done]. destruct (pa_st _ _ _ _ A) as [?|[? _]]; congruence.
Qed.
Lemma down_dead s ev x : inv s ev -> d_st s = DDown -> ~ live s x.
Proof. intros I Hs Hl. pose proof (down_phC _ _ I Hs) as C. unfold live in Hl. destruct (owner s x); [rewrite (pc_own _ _ C) in Hl|rewrite (pc_points _ _ C) in Hl]; by apply elem_of_nil in Hl. Qed.
Lemma list_nil {A} (l : list A) : (forall x, x ∉ l) -> l = [].
Proof. destruct l as [|x l]; [done|]. intros H. exfalso. apply (H x). left. Qed.
Lemma down_foreign s ev : inv s ev -> d_st s = DDown -> d_fq s = [] -> d_fpts s = [] /\ d_fmap s = [].
Proof.
  intros I Hs Hq. pose proof I as [G _]. rewrite (g_fmap _ _ _ _ _ _ G). assert (d_fpts s = []) as ->; [|done]. apply list_nil. intros x Hx.
  pose proof (g_fend _ _ _ _ _ _ G x) as H. rewrite Hq in H. cbn in H. apply H in Hx as [[Hx|Hx] _]; [by eapply down_dead|by apply elem_of_nil in Hx].
Qed.
Lemma foreign_step s ev : inv s ev -> d_st s = DDown -> exists s' e, dstep n ext s OFDeliver = Ok (s', e) /\ inv s' (ev ++ e) /\ d_st s' = DDown /\ d_fq s' = tail (d_fq s).
Proof.
  intros I Hs.
  assert (W : wp true (dprog n ext OFDeliver) (fun _ s' ev' => inv s' ev' /\ d_st s' = DDown /\ d_fq s' = tail (d_fq s)) s ev).
  { apply wp_and; [by apply (dprog_ok n base ext su OFDeliver)|]. cbn [dprog]. wps. destruct (d_fq s) as [|m r] eqn:E; [by wps|]. wps. destruct m; cbn [fdeliver]; [by wps| |by wps].
    wps. destruct (find_last _ _); [|done]. by wps. }
  unfold wp in W. unfold dstep, to_step. destruct (dprog n ext OFDeliver s) as [[[s1 e1] []]| |]; [|done..]. by exists s1, e1.
Qed.
Lemma foreign_drain s ev : inv s ev -> d_st s = DDown -> exists s' e, run (dstep n ext) s (replicate (List.length (d_fq s)) OFDeliver) = Ok (s', e) /\ inv s' (ev ++ e) /\ d_st s' = DDown /\ d_fpts s' = [] /\ d_fmap s' = [].
Proof.
  remember (d_fq s) as q eqn:Hq. revert s ev Hq. induction q as [|m q IH]; intros s ev Hq I Hs.
  - exists s, []. rewrite app_nil_r. split; [done|]. split; [done|]. split; [done|]. by eapply down_foreign.
  - destruct (foreign_step s ev I Hs) as (s1 & e1 & R1 & I1 & D1 & Q1). destruct (IH s1 (ev ++ e1)) as (s2 & e2 & R2 & I2 & D2 & F2); [by rewrite Q1, <- Hq|done|done|].
    exists s2, (e1 ++ e2). cbn [List.length replicate run]. rewrite R1. cbn [rbind]. rewrite R2. cbn [rbind]. rewrite (assoc_L (++)). done.
Qed.
End steps.
