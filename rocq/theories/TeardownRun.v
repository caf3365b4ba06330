(** Teardown: the deactivation of the plugins, and all steps. *)
From stdpp Require Import base list gmap.
From Coq Require Import Sorting.Sorted.
From Verif Require Import Base Prog TeardownModel TeardownSpec TeardownProofs TeardownSteps.
Open Scope nat_scope.
Local Open Scope prog_scope.

Section steps.
Context (n : nat) (base : nat -> nat) (ext : N -> bool) (su : setup n base ext).
Notation P := (prog dstate dev).
Notation isext := (isext ext).
Notation starter := (starter n).
Notation good := (good n ext).
Notation mark := (mark ext).
Notation gone := (gone ext).
Notation unsubscribe_info := (unsubscribe_info ext).
Notation phA := (phAc n true).
Notation phB := (phB n).
Notation inv := (inv n ext).

(** ** deactivate_plugins and the first round of lifetime; [l]: plugins to come,
    [l2]: subscriptions to come. *)
Record phM (l l2 : list nat) (s : dstate) (ev : list dev) : Prop := PhM {
  m_st : d_st s = DShutting;
  m_alive : d_alive s = true;
  m_life : d_life s = true;
  m_hold : d_hold s = false;
  m_lshut : d_lshut s = true;
  m_own : forall p, n <= p -> d_own s p = [];
  m_nd : forall p, NoDup (d_own s p);
  m_own1 : d_own s lifetime = [0; 1; 2];
  m_start : d_own s starter <> [];
  m_un : forall x, un s x = true -> 3 <= x;
  m_l : NoDup l;
  m_todo : forall p, p ∈ l -> p < n /\ p ∉ d_deact s /\ d_act s p = true /\ EPlugDown p ∉ ev;
  m_done : forall p, p < n -> p ∉ l -> d_act s p = bool_decide (p ∈ d_deact s) /\ (p ∈ d_deact s <-> p = lifetime \/ d_own s p <> []) /\
    (p <> lifetime -> forall x, x ∈ d_own s p -> un s x = true) /\ (EPlugDown p ∈ ev <-> p ∉ d_deact s);
  m_none : forall p, n <= p -> p ∉ d_deact s /\ d_act s p = false /\ EPlugDown p ∉ ev;
  m_pts : forall x, x ∈ d_points s -> x ∈ l2 \/ owner s x = None /\ un s x = true;
  m_ev : EDeact ∈ ev /\ EDown ∉ ev
}.
Lemma ev_same (ev ev' : list dev) e : (forall e, e ∈ ev' -> e ∈ ev \/ exists x, e = EUnsubReq x) -> (forall e, e ∈ ev -> e ∈ ev') ->
  (forall x, e <> EUnsubReq x) -> e ∈ ev' <-> e ∈ ev.
Proof. intros E1 E2 H. split; [|auto]. intros [?|[x ->]]%E1; [done|]. by destruct (H x). Qed.
(** Subscriptions not of lifetime are marked. *)
Lemma phM_fr l l2 L s s' ev ev' : phM l l2 s ev -> fr L s s' -> (forall x, x ∈ L -> 3 <= x) ->
  (forall e, e ∈ ev' -> e ∈ ev \/ exists x, e = EUnsubReq x) -> (forall e, e ∈ ev -> e ∈ ev') -> phM l l2 s' ev'.
Proof.
  intros M F HL E1 E2. destruct (rest_eqs _ _ (fr_rest _ _ _ F)) as (R1 & R2 & R3 & R4 & R5 & R6 & R7 & R8 & R9 & R10).
  assert (EP : forall p, EPlugDown p ∈ ev' <-> EPlugDown p ∈ ev) by (intros p; by apply ev_same).
  destruct M. split; rewrite ?R1, ?R2, ?R3, ?R4, ?R5, ?R6, ?R7, ?R8, ?R9, ?R10; try assumption.
  - intros x [?|?]%(fr_un _ _ _ F); auto.
  - intros p. rewrite EP. auto.
  - intros p H1 H2. rewrite EP. destruct (m_done0 p H1 H2) as (D1 & D2 & D3 & D4). do 2 (split; [done|]). split; [|done]. intros D5 x Hx. apply (fr_un _ _ _ F). left. by apply D3.
  - intros p. rewrite EP. auto.
  - intros x Hx. rewrite (fr_owner _ _ _ _ F). destruct (m_pts0 x Hx) as [?|[? ?]]; [auto|]. right. split; [done|]. apply (fr_un _ _ _ F). auto.
  - split; [by apply E2, m_ev0|]. intros [?|[? ?]]%E1; [|done]. by apply m_ev0.
Qed.
Lemma own_three Y Z s ev p x : good Y Z s ev -> x ∈ d_own s p -> p <> lifetime -> 3 <= x.
Proof.
  intros G Hx Hp. apply (g_own _ _ _ _ _ _ G) in Hx. destruct (decide (x < 3)) as [H|H]; [|lia]. apply (g_first _ _ _ _ _ _ G) in H. congruence.
Qed.
Lemma deactivate_one p l l2 s ev : good [] [] s ev -> phM (p :: l) l2 s ev ->
  wp true (s0 <- get ;; when (d_act s0 p) (modify (fun s => w_deact s (d_deact s ∪ {[p]})) ;; when (negb (bool_decide (p = lifetime))) (base_deactivate ext p)))
    (fun _ s' ev' => good [] [] s' ev' /\ phM l l2 s' ev' /\ d_points s' = d_points s /\ d_ishut s' = d_ishut s) s ev.
Proof.
  intros G M. destruct (m_todo _ _ _ _ M p) as (T1 & T2 & T3 & T4); [left|]. assert (Hpl : p ∉ l) by (apply NoDup_cons; apply (m_l _ _ _ _ M)).
  apply wp_bnd, wp_get. rewrite T3. cbn [when]. apply wp_bnd, wp_modify. set (s1 := w_deact s (d_deact s ∪ {[p]})).
  assert (G1 : good [] [] s1 ev) by by eapply good_frame0.
  assert (HD : forall q, q ∈ d_deact s1 <-> q ∈ d_deact s \/ q = p) by (intros q; unfold s1; cbn; by rewrite elem_of_union, elem_of_singleton).
  assert (Hrest : forall q, q ∈ l -> q < n /\ q ∉ d_deact s1 /\ d_act s1 q = true /\ EPlugDown q ∉ ev).
  { intros q Hq. destruct (m_todo _ _ _ _ M q) as (Q1 & Q2 & Q3 & Q4); [by right|]. split; [done|]. split; [|done]. rewrite HD. intros [?| ->]; done. }
  assert (Hdone : forall q, q < n -> q ∉ l -> q <> p -> d_act s1 q = bool_decide (q ∈ d_deact s1) /\ (q ∈ d_deact s1 <-> q = lifetime \/ d_own s1 q <> []) /\
    (q <> lifetime -> forall x, x ∈ d_own s1 q -> un s1 x = true) /\ (EPlugDown q ∈ ev <-> q ∉ d_deact s1)).
  { intros q Hq Hql Hqp. destruct (m_done _ _ _ _ M q Hq) as (Q1 & Q2 & Q3 & Q4); [by apply not_elem_of_cons|].
    assert (HQ : q ∈ d_deact s1 <-> q ∈ d_deact s) by (rewrite HD; tauto). split; [|split; [|split]]; [|by rewrite HQ|done|by rewrite HQ].
    change (d_act s1) with (d_act s). rewrite Q1. by apply bool_decide_ext. }
  assert (Hnone : forall q, n <= q -> q ∉ d_deact s1 /\ d_act s1 q = false /\ EPlugDown q ∉ ev).
  { intros q Hq. destruct (m_none _ _ _ _ M q Hq) as (Q1 & Q2 & Q3). split; [|done]. rewrite HD. intros [?| ->]; [done|lia]. }
  destruct (decide (p = lifetime)) as [Hp|Hp].
  - rewrite (bool_decide_eq_true_2 (p = lifetime)) by done. cbn [negb when]. wps. split; [done|]. split; [|done].
    destruct M. split; try assumption; [by apply NoDup_cons in m_l0 as [_ ?]|]. intros q Hq Hql. destruct (decide (q = p)) as [->|Hqp]; [|by apply Hdone].
    change (d_act s1) with (d_act s). rewrite T3. split; [|split; [|split]].
    + symmetry. apply bool_decide_eq_true, HD. auto.
    + rewrite HD. tauto.
    + done.
    + rewrite HD. tauto.
  - rewrite (bool_decide_eq_false_2 (p = lifetime)) by done. cbn [negb when]. unfold base_deactivate. apply wp_bnd, wp_get. change (d_act s1 p) with (d_act s p). rewrite T3. cbn [when].
    change (d_own s1 p) with (d_own s p). destruct (decide (d_own s p = [])) as [Ho|Ho].
    + rewrite (bool_decide_eq_true_2 (d_own s p = [])) by done. unfold commit_deactivation. wps; [exfalso; by apply bool_decide_eq_true in H|]. clear H. split.
      { eapply good_frame0; [eapply (good_frame _ _ _ _ s1 _ s1 (EPlugDown p)); [exact G1|done|done|]|done]. cbn. split; [apply (m_ev _ _ _ _ M)|done]. }
      split; [|done]. set (s2 := w_act _ _). assert (HD2 : forall q, q ∈ d_deact s2 <-> q ∈ d_deact s) by (intros q; unfold s2; cbn; set_solver).
      destruct M. split; try assumption.
      * by apply NoDup_cons in m_l0 as [_ ?].
      * intros q Hq. assert (q <> p) by (intros ->; done). destruct (m_todo0 q) as (Q1 & Q2 & Q3 & Q4); [by right|]. split; [done|]. rewrite HD2. split; [done|]. split.
        -- unfold s2. cbn. by rewrite updn_ne.
        -- rewrite elem_snoc. intros [?|E]; [done|]. by inversion E.
      * intros q Hq Hql. destruct (decide (q = p)) as [->|Hqp].
        -- unfold s2 at 1. cbn [w_act d_act]. rewrite updn_eq. split; [|split; [|split]].
           ++ symmetry. apply bool_decide_eq_false. by rewrite HD2.
           ++ rewrite HD2. split; [done|]. change (d_own s2 p) with (d_own s p). intros [?|?]; done.
           ++ intros _ x. change (d_own s2 p) with (d_own s p). rewrite Ho. by intros ?%elem_of_nil.
           ++ rewrite elem_snoc, HD2. tauto.
        -- destruct (m_done0 q Hq) as (Q1 & Q2 & Q3 & Q4); [by apply not_elem_of_cons|]. unfold s2 at 1. cbn [w_act d_act]. rewrite updn_ne by done. split; [|split; [|split]].
           ++ change (d_act s q = bool_decide (q ∈ d_deact s2)). rewrite Q1. apply bool_decide_ext. symmetry. apply HD2.
           ++ rewrite HD2. done.
           ++ done.
           ++ rewrite elem_snoc, HD2, Q4. split; [|auto]. intros [?|E]; [done|]. by inversion E.
      * intros q Hq. destruct (m_none0 q Hq) as (Q1 & Q2 & Q3). rewrite HD2. split; [done|]. split; [unfold s2; cbn; rewrite updn_ne; [done|lia]|].
        rewrite elem_snoc. intros [?|E]; [done|]. inversion E. lia.
      * destruct m_ev0 as [V1 V2]. split; [apply elem_snoc; auto|]. rewrite elem_snoc. by intros [?|?].
    + rewrite (bool_decide_eq_false_2 (d_own s p = [])) by done. apply wp_bnd, wp_check; [intros _; apply (m_life _ _ _ _ M)|intros _].
      wp_use (apply (each_unsub n ext [] [] (rev (d_own s p)) s1 ev G1)).
      { apply NoDup_ListNoDup, NoDup_rev, NoDup_ListNoDup, (m_nd _ _ _ _ M). } { intros x Hx. apply elem_rev, (g_own _ _ _ _ _ _ G) in Hx. by apply owner_lt in Hx. }
      intros [] s2 ev2 (G2 & F2 & E1 & E2). destruct (rest_eqs _ _ (fr_rest _ _ _ F2)) as (R1 & R2 & R3 & R4 & R5 & R6 & R7 & R8 & R9 & R10).
      split; [done|]. split; [|by rewrite R6, R9]. 
      assert (EP : forall q, EPlugDown q ∈ ev2 <-> EPlugDown q ∈ ev) by (intros q; by apply ev_same).
      destruct M. split; rewrite ?R1, ?R2, ?R3, ?R4, ?R5, ?R6, ?R7, ?R8, ?R9, ?R10; try assumption.
      * intros x [?|Hx]%(fr_un _ _ _ F2); [by apply m_un0|]. rewrite elem_rev in Hx. exact (own_three _ _ _ _ _ _ G Hx Hp).
      * by apply NoDup_cons in m_l0 as [_ ?].
      * intros q. rewrite EP. apply Hrest.
      * intros q Hq Hql. rewrite EP. destruct (decide (q = p)) as [->|Hqp].
        -- change (d_act s1 p) with (d_act s p). rewrite T3. split; [|split; [|split]].
           ++ symmetry. apply bool_decide_eq_true, HD. auto.
           ++ rewrite HD. split; [|auto]. intros _. by right.
           ++ intros _ x Hx. apply (fr_un _ _ _ F2). right. by apply elem_rev.
           ++ rewrite HD. tauto.
        -- destruct (Hdone q Hq Hql Hqp) as (D1 & D2 & D3 & D4). do 2 (split; [done|]). split; [|done]. intros D5 x Hx. apply (fr_un _ _ _ F2). left. by apply D3.
      * intros q. rewrite EP. apply Hnone.
      * intros x Hx. rewrite (fr_owner _ _ _ _ F2). destruct (m_pts0 x Hx) as [?|[? ?]]; [auto|]. right. split; [done|]. apply (fr_un _ _ _ F2). auto.
      * split; [by apply E2, m_ev0|]. intros [?|[? ?]]%E1; [|done]. by apply m_ev0.
Qed.

(** ** From the phase before to the one after. *)
Lemma phM_start s ev : good [] [] s ev -> phAc n false s ev -> d_st s = DShutting -> d_hold s = false -> phM (rev (seq 0 n)) (rev (d_points s)) s (ev ++ [EDeact]).
Proof.
  intros G A Hs Hh. destruct A. split; try assumption.
  - destruct pa_start as (x & k & Hx & _). intros E. rewrite E in Hx. by apply elem_of_nil in Hx.
  - intros x Hx. destruct (decide (x < 3)) as [H|H]; [|lia]. apply (g_first _ _ _ _ _ _ G), (g_plug _ _ _ _ _ _ G) in H. apply pa_un in Hx as [t Ht].
    destruct H as [[H _]|(_ & k & H)]; [|congruence]. assert (Hn : 4 <= n) by apply su. unfold TeardownModel.starter, lifetime in H. lia.
  - apply NoDup_ListNoDup, NoDup_rev, seq_NoDup.
  - intros p Hp. apply (elem_plugins n) in Hp. rewrite pa_deact, pa_act. split; [done|]. split; [set_solver|]. split; [by apply bool_decide_eq_true|].
    rewrite elem_snoc. intros [?|?]; [|done]. by apply pa_ev in H.
  - intros p Hp Hp'. exfalso. apply Hp'. by apply (elem_plugins n).
  - intros p Hp. rewrite pa_deact, pa_act. split; [set_solver|]. split; [apply bool_decide_eq_false; lia|]. rewrite elem_snoc. intros [?|?]; [|done]. by apply pa_ev in H.
  - intros x Hx. left. by apply elem_rev.
  - destruct pa_ev as (V1 & V2 & V3). split; [apply elem_snoc; auto|]. rewrite elem_snoc. by intros [?|?].
Qed.
Lemma deactivate_ok s ev : good [] [] s ev -> phAc n false s ev -> d_st s = DShutting -> d_hold s = false ->
  wp true (deactivate_plugins n ext) (fun _ s' ev' => good [] [] s' ev' /\ phM [] (rev (d_points s)) s' ev' /\ d_points s' = d_points s) s ev.
Proof.
  intros G A Hs Hh. unfold deactivate_plugins. apply wp_bnd, wp_emit.
  apply (wp_each_list true _ _ (fun l s' ev' => good [] [] s' ev' /\ phM l (rev (d_points s)) s' ev' /\ d_points s' = d_points s)).
  - intros p r s1 ev1 (G1 & M1 & P1). eapply wp_mono; [by apply (deactivate_one p r (rev (d_points s)))|]. cbv beta. intros [] s2 ev2 (G2 & M2 & P2 & _). split; [done|]. split; [done|]. congruence.
  - split; [|split; [by apply phM_start|done]]. eapply good_frame; [done|done|done|]. cbn. apply (pa_ev _ _ _ _ A).
  - intros s1 ev1 H. exact H.
Qed.
Lemma phM_B s ev : phM [] [] s ev -> d_ishut s = false -> phB [] [] s ev /\ lastB s /\ 1 < size (d_deact s).
Proof.
  intros M Hi. assert (Hn : 4 <= n) by apply su. destruct M.
  assert (HN : forall p, p ∉ (@nil nat)) by (intros p; apply not_elem_of_nil).
  assert (H1 : lifetime ∈ d_deact s) by (destruct (m_done0 lifetime) as (_ & H & _); [unfold lifetime; lia|done|apply H; auto]).
  assert (H2 : starter ∈ d_deact s) by (destruct (m_done0 starter) as (_ & H & _); [unfold TeardownModel.starter; lia|done|apply H; auto]).
  assert (Hsl : starter <> lifetime) by (unfold TeardownModel.starter, lifetime; lia).
  assert (Hlt : forall p, p ∈ d_deact s -> p < n). { intros p Hp. destruct (decide (p < n)); [done|]. exfalso. destruct (m_none0 p) as [H _]; [lia|done]. }
  assert (Hsz : 1 < size (d_deact s)).
  { assert (size ({[lifetime; starter]} : gset nat) <= size (d_deact s)) as H by (apply subseteq_size; set_solver). rewrite size_union, !size_singleton in H by set_solver. lia. }
  assert (Hd : d_deact s <> {[lifetime]}) by (intros E; rewrite E, size_singleton in Hsz; lia).
  assert (HU : forall x, x < 3 -> un s x = false). { intros x Hx. destruct (un s x) eqn:E; [|done]. apply m_un0 in E. lia. }
  split; [|split; [by intros ? ?|done]]. split; try assumption.
  - intros p _. destruct (decide (p < n)) as [Hp|Hp]; [by apply m_done0|]. destruct (m_none0 p) as (N1 & N2 & _); [lia|]. rewrite N2. symmetry. by apply bool_decide_eq_false.
  - intros p Hp. split; [auto|]. destruct (m_done0 p (Hlt p Hp) (HN p)) as (D1 & D2 & D3 & D4). split; [|done]. apply D2 in Hp as [->|?]; [|done]. by rewrite m_own2.
  - intros p Hp. destruct (decide (p < n)) as [Hpn|Hpn]; [|apply m_own0; lia]. destruct (m_done0 p Hpn (HN p)) as (D1 & D2 & D3 & D4).
    destruct (d_own s p) eqn:E; [done|]. exfalso. apply Hp, D2. by right.
  - intros x Hx. destruct (m_pts0 x Hx) as [H|H]; [by apply elem_of_nil in H|done].
  - intros H. rewrite HU in H by lia. done.
  - congruence.
  - left. rewrite !HU by lia. done.
  - destruct m_ev0 as [V1 V2]. split; [done|]. split; [done|]. intros p. destruct (decide (p < n)) as [Hpn|Hpn].
    + destruct (m_done0 p Hpn (HN p)) as (D1 & D2 & D3 & D4). rewrite D4. tauto.
    + destruct (m_none0 p) as (N1 & N2 & N3); [lia|]. tauto.
Qed.
Lemma cont_A s ev : good [] [] s ev -> phAc n false s ev -> d_st s = DShutting -> d_hold s = false ->
  wp true (shutdown_continue n ext) (fun _ s' ev' => good [] [] s' ev' /\ phB [] [] s' ev' /\ lastB s') s ev.
Proof.
  intros G A Hs Hh. unfold shutdown_continue. apply wp_bnd, wp_get. apply wp_bnd, wp_check; [intros _; by apply bool_decide_eq_true|intros _].
  rewrite Hh, (pa_ishut _ _ _ _ A). cbn [when]. apply wp_assoc. wp_use (by apply deactivate_ok). intros [] s1 ev1 (G1 & M1 & P1). wps. 2: { exfalso. cbn in Heqb. by rewrite (m_lshut _ _ _ _ M1) in Heqb. }
  set (s2 := w_ishut s1 false). assert (G2 : good [] [] s2 ev1) by by eapply good_frame0.
  assert (M2 : phM [] (rev (d_points s)) s2 ev1) by (destruct M1; split; assumption).
  unfold lifetime_shutdown. apply wp_assoc, wp_bnd, wp_get.
  assert (Hne : d_points s2 <> []). { change (d_points s2) with (d_points s1). rewrite P1. pose proof (pa_pts0 _ _ _ _ A) as H. intros E. rewrite E in H. by apply elem_of_nil in H. }
  rewrite (bool_decide_eq_false_2 (d_points s2 = [])) by done. cbn [andb]. unfold lifetime_unsubscribe. apply wp_assoc, wp_assoc, wp_bnd, wp_get. apply wp_assoc.
  change (d_points s2) with (d_points s1). rewrite P1.
  eapply wp_call; [refine (wp_each_list true _ _ (fun l s' ev' => (good [] [] s' ev' /\ phM [] l s' ev' /\ d_ishut s' = false) /\
    (forall x, x ∈ l -> x ∈ rev (d_points s)) /\ (forall x, owner s' x = owner s2 x) /\ len s' = len s2) (fun _ s' ev' => good [] [] s' ev' /\ phM [] [] s' ev' /\ d_ishut s' = false) s2 ev1 _ _ _)|].
  - intros x r s3 ev3 ((G3 & M3 & I3) & S3 & O3 & L3). assert (Hx : x < len s2).
    { apply (g_pts _ _ _ _ _ _ G2). change (d_points s2) with (d_points s1). rewrite P1. apply elem_rev, S3. left. }
    assert (S3' : forall y, y ∈ r -> y ∈ rev (d_points s)) by (intros y Hy; apply S3; by right).
    unfold anonymous. destruct (owner s2 x) as [p|] eqn:Ho.
    + wps. split; [|done]. split; [eapply (good_drop _ _ _ _ _ _ _ p); [done|by rewrite O3]|]. split; [|done].
      destruct M3. split; try assumption. intros y [Hy Hyx]%elem_erase. destruct (m_pts0 y Hy) as [Hy'|Hy']; [|by right]. left. by apply elem_of_cons in Hy' as [?|?].
    + eapply wp_mono; [by apply (unsub_info n ext [] [] s3 ev3 x); [|rewrite L3]|]. cbv beta. intros [] s4 ev4 (G4 & F4 & E1 & E2).
      destruct (rest_eqs _ _ (fr_rest _ _ _ F4)) as (R1 & R2 & R3 & R4 & R5 & R6 & R7 & R8 & R9 & R10).
      assert (M4 : phM [] (x :: r) s4 ev4).
      { eapply (phM_fr _ _ [x]); [done|done| | |done].
        - intros y ->%elem_of_list_singleton. destruct (decide (x < 3)) as [H|H]; [|lia]. apply (g_first _ _ _ _ _ _ G2) in H. congruence.
        - intros e [?| ->]%E1; [auto|]. right. by exists x. }
      split; [split; [done|split; [|by rewrite R9]]|].
      * assert (Hu4 : owner s4 x = None /\ un s4 x = true) by (split; [by rewrite (fr_owner _ _ _ _ F4), O3|apply (fr_un _ _ _ F4); right; left]).
        destruct M4. split; try assumption. intros y Hy. destruct (m_pts0 y Hy) as [Hy'|Hy']; [|by right]. apply elem_of_cons in Hy' as [->|?]; auto.
      * split; [done|]. split; [intros y; by rewrite (fr_owner _ _ _ _ F4)|]. by rewrite (fr_len _ _ _ F4).
  - split; [done|]. split; [done|]. done.
  - intros s3 ev3 (H & _). exact H.
  - cbv beta. intros [] s3 ev3 (G3 & M3 & I3). apply wp_assoc, wp_bnd, wp_get. destruct (phM_B s3 ev3 M3 I3) as (B3 & L3 & Z3).
    rewrite (bool_decide_eq_false_2 (size (d_deact s3) = 1)) by lia. rewrite andb_false_r. cbn [when]. by wps.
Qed.

(** ** Every step. *)
Lemma phA_hold s ev : phA s ev -> phAc n false (w_hold s false) ev.
Proof. intros []. split; try assumption. destruct pa_st as [?|[? ?]]; [by left|right; done]. Qed.
Lemma taken_free Y Z s ev t a : good Y Z s ev -> taken s t a = false -> forall x, live s x -> key s x <> (HUser t, a).
Proof.
  intros G Ht x Hl Hk. unfold taken in Ht. apply not_true_iff_false in Ht. apply Ht, existsb_exists. exists x. split.
  - apply elem_of_list_In, elem_of_seq. apply (live_lt _ _ _ _ _ _ _ G) in Hl. lia.
  - apply andb_true_iff. split; [apply matches_spec; unfold key in Hk; by inversion Hk|]. unfold live in Hl. destruct (owner s x); by apply bool_decide_eq_true.
Qed.
Lemma phA_add c s ev t a o : (forall p x, x ∈ d_own s p -> x < len s) -> phAc n c s ev -> o = None \/ o = Some starter -> phAc n c (add ext s (HUser t) a o) (ev ++ [ESub (len s)]).
Proof.
  intros Hfresh A Ho. set (s' := add ext s (HUser t) a o). assert (Hn : 4 <= n) by apply su.
  assert (HR : d_st s' = d_st s /\ d_alive s' = d_alive s /\ d_life s' = d_life s /\ d_act s' = d_act s /\ d_deact s' = d_deact s /\ d_hold s' = d_hold s /\ d_ishut s' = d_ishut s /\ d_lshut s' = d_lshut s).
  { unfold s', add. destruct (ext a), o; done. } destruct HR as (R1 & R2 & R3 & R4 & R5 & R6 & R7 & R8).
  assert (HOwn : forall p, p <> starter -> d_own s' p = d_own s p).
  { intros p Hp. unfold s'. rewrite add_own. rewrite bool_decide_eq_false_2; [done|]. destruct Ho as [->| ->]; [done|]. intros E. inversion E. done. }
  assert (Hsub : forall p x, x ∈ d_own s p -> x ∈ d_own s' p).
  { intros p x Hx. unfold s'. rewrite add_own. case_bool_decide; [apply elem_snoc; auto|done]. }
  destruct A. split; rewrite ?R1, ?R2, ?R3, ?R4, ?R5, ?R6, ?R7, ?R8; try assumption.
  - intros p Hp. rewrite HOwn; [by apply pa_own|]. unfold TeardownModel.starter. lia.
  - intros p. unfold s'. rewrite add_own. case_bool_decide; [|done]. apply NoDup_app. split; [done|]. split; [|apply NoDup_singleton].
    intros x Hx ->%elem_of_list_singleton. apply Hfresh in Hx. lia.
  - rewrite HOwn; [done|]. unfold TeardownModel.starter, lifetime. lia.
  - unfold s'. rewrite add_points. apply elem_snoc. auto.
  - intros p x Hx. unfold s' in *. rewrite add_points. rewrite add_own in Hx. apply elem_snoc. case_bool_decide; [apply elem_snoc in Hx as [Hx| ->]; [|by right]|]; left; by eapply pa_live.
  - intros x. unfold s'. rewrite add_info. destruct (decide (x = len s)); [done|]. apply pa_un.
  - destruct pa_start as (x & k & Hx & Hk). exists x, k. split; [auto|]. unfold s'. rewrite add_info. destruct (decide (x = len s)) as [E|]; [|done]. apply Hfresh in Hx. lia.
  - destruct pa_ev as (V1 & V2 & V3). split; [|split]; [| |intros q]; rewrite elem_snoc; intros [?|?]; try done; by apply (V3 q).
Qed.
Lemma own_len Y Z s ev : good Y Z s ev -> forall p x, x ∈ d_own s p -> x < len s.
Proof. intros G p x Hx. apply (g_own _ _ _ _ _ _ G) in Hx. by eapply owner_lt. Qed.
Lemma inv_up s ev : inv s ev -> d_st s = DUp -> phA s ev.
Proof. intros [G [A|[[B _]|C]]] Hs; [done|exfalso..]; [rewrite (pb_st _ _ _ _ _ B) in Hs|rewrite (pc_st _ _ C) in Hs]; done. Qed.
Lemma subscribe_ok s ev t a o (k : nat -> P unit) (Q : unit -> dstate -> list dev -> Prop) : d_life s = true ->
  (forall s1, s1 = (let x := len s in
    w_points (if ext a then w_fq (w_infos s (d_infos s ++ [DInfo t a o false])) (d_fq s ++ [FSub x]) else w_map (w_infos s (d_infos s ++ [DInfo t a o false])) (d_map s ++ [x])) (d_points s ++ [x])) ->
    wp true (k (len s)) Q s1 (ev ++ [ESub (len s)])) ->
  wp true (bnd (subscribe ext t a o) k) Q s ev.
Proof.
  intros Hl H. unfold subscribe. apply wp_assoc, wp_bnd, wp_get. apply wp_assoc, wp_bnd, wp_modify. apply wp_assoc, wp_bnd. destruct (ext a).
  - apply wp_modify. apply wp_assoc, wp_bnd, wp_get. cbn [d_life w_fq w_infos]. rewrite Hl. wps. by apply H.
  - apply wp_modify. apply wp_assoc, wp_bnd, wp_get. cbn [d_life w_map w_infos]. rewrite Hl. wps. by apply H.
Qed.
Lemma phA_life c s ev : phAc n c s ev -> d_life s = true.
Proof. by intros []. Qed.

(** Phases do not depend on what the other context does. *)
Lemma phase_other s ev s' ev' : rest (w_fq (w_fpts (w_fmap s' []) []) []) = rest (w_fq (w_fpts (w_fmap s []) []) []) -> d_infos s' = d_infos s -> pending s' = pending s ->
  (forall e, match e with EDeact | EDown | EPlugDown _ => e ∈ ev' <-> e ∈ ev | _ => True end) ->
  (phA s ev \/ phB [] [] s ev /\ lastB s \/ phC s ev) -> (phA s' ev' \/ phB [] [] s' ev' /\ lastB s' \/ phC s' ev').
Proof.
  intros HR HI HQ HE. assert (HI' : forall x, info s' x = info s x) by (intros x; unfold info; by rewrite HI).
  pose proof (HE EDeact) as E1. pose proof (HE EDown) as E2. assert (E3 : forall p, EPlugDown p ∈ ev' <-> EPlugDown p ∈ ev) by (intros p; exact (HE (EPlugDown p))).
  cbn in E1, E2. unfold rest in HR. cbn in HR.
  injection HR as R1 R2 R3 R4 R5 R6 R7 R8 R9 R10 R11.
  intros [A|[[B L]|C]].
  - left. destruct A. split; rewrite ?R1, ?R2, ?R3, ?R4, ?R5, ?R6, ?R7, ?R8, ?R9, ?R10, ?R11; try assumption.
    + intros x. rewrite HI'. apply pa_un.
    + destruct pa_start as (x & k & Hx). exists x, k. by rewrite HI'.
    + rewrite E1, E2. destruct pa_ev as (V1 & V2 & V3). split; [done|]. split; [done|]. intros p. rewrite E3. auto.
  - right; left. split.
    + destruct B. split; rewrite ?R1, ?R2, ?R3, ?R4, ?R5, ?R6, ?R7, ?R8, ?R9, ?R10, ?R11; try assumption.
      * intros p Hp. destruct (pb_deact p Hp) as (D1 & D2 & D3). split; [done|]. split; [done|]. intros D4 x Hx. rewrite HI'. by apply D3.
      * intros x. rewrite HI'. apply pb_pts.
      * by rewrite HI'.
      * rewrite HQ, !HI'. done.
      * rewrite E1, E2. destruct pb_ev as (V1 & V2 & V3). split; [done|]. split; [done|]. intros p. rewrite E3. auto.
    + unfold lastB. by rewrite R6, R7, HI'.
  - right; right. destruct C. split; rewrite ?R1, ?R2, ?R3, ?R4, ?R5, ?R6, ?R7, ?R8, ?R9, ?R10, ?R11; try assumption. by rewrite E1, E2.
Qed.
Ltac other := eapply phase_other; [| | | |eassumption]; [done|done|try done| ].
Ltac noev := let e := fresh in intros e; destruct e; try done; rewrite elem_snoc; (split; [by intros [?|?]|auto]).

Lemma dprog_ok o s ev : usage ext s o -> inv s ev -> wp true (dprog n ext o) (fun _ => inv) s ev.
Proof.
  intros U I. assert (I' := I). destruct I' as [G Ph]. destruct o; cbn [dprog usage] in *.
  - destruct U as (U1 & U2 & U3). pose proof (inv_up _ _ I U1) as A. apply (subscribe_ok _ _ _ _ _ _ _ (phA_life _ _ _ A)). intros s1 Hs1. wps. rewrite U2 in Hs1.
    assert (s1 = add ext s (HUser t) a None) as -> by (subst s1; unfold add; by rewrite U2). split.
    + apply (good_add n base ext su); [done|apply (pa_ev _ _ _ _ A)|by eapply taken_free|by left].
    + left. apply phA_add; [by eapply own_len|done|by left].
  - destruct U as (U1 & U3). pose proof (inv_up _ _ I U1) as A. unfold plug_subscribe. apply (subscribe_ok _ _ _ _ _ _ _ (phA_life _ _ _ A)). intros s1 Hs1. wps.
    assert (w_own s1 (updn (d_own s1) starter (d_own s1 starter ++ [len s])) = add ext s (HUser t) a (Some starter)) as -> by (subst s1; unfold add; by destruct (ext a)). split.
    + apply (good_add n base ext su); [done|apply (pa_ev _ _ _ _ A)|by eapply taken_free|by right].
    + left. apply phA_add; [by eapply own_len|done|by right].
  - destruct U as [U1 U2]. unfold unsubscribe. apply wp_bnd, wp_get. rewrite U1. apply wp_bnd, wp_skip.
    destruct (find_last _ (d_points s)) as [x|] eqn:E.
    2: { exfalso. unfold known in U2. apply existsb_exists in U2 as (x & Hx & Hm). apply elem_of_list_In in Hx. apply (find_last_none _ _ E) in Hx. cbn in Hx. congruence. }
    apply find_last_some in E as [E1 E2]. assert (Hx : x < len s) by by apply (g_pts _ _ _ _ _ _ G).
    assert (Hnb : un s x = true -> wp true (unsubscribe_info x) (fun _ => inv) s ev).
    { intros Hu. unfold TeardownModel.unsubscribe_info. wps; [by rewrite Hu in H|done]. }
    destruct (un s x) eqn:Hu; [by apply Hnb|].
    eapply wp_mono; [by apply (unsub_info n ext [] [] s ev x)|]. cbv beta. intros [] s1 ev1 (G1 & F1 & V1 & V2). split; [done|].
    destruct (rest_eqs _ _ (fr_rest _ _ _ F1)) as (R1 & R2 & R3 & R4 & R5 & R6 & R7 & R8 & R9 & R10).
    destruct Ph as [A|[[B L]|C]].
    + left. destruct A. split; rewrite ?R1, ?R2, ?R3, ?R4, ?R5, ?R6, ?R7, ?R8, ?R9, ?R10; try assumption.
      * intros y Hy. rewrite (fr_type _ _ _ _ F1). apply (fr_un _ _ _ F1) in Hy as [Hy|Hy]; [by apply pa_un|]. apply elem_of_list_singleton in Hy as ->.
        apply matches_spec in E2 as [E2 _]. by exists t.
      * destruct pa_start as (y & k & Hy & Hk). exists y, k. by rewrite (fr_type _ _ _ _ F1).
      * destruct pa_ev as (W1 & W2 & W3). split; [|split]; [| |intros q]; (intros [?|?]%V1; [|done]); [done|done|by apply (W3 q)].
    + exfalso. apply (pb_pts _ _ _ _ _ B) in E1 as [_ E1]. congruence.
    + exfalso. rewrite (pc_points _ _ C) in E1. by apply elem_of_nil in E1.
  - pose proof (inv_up _ _ I U) as A. apply wp_bnd, wp_modify. set (s1 := w_st s DShutting). assert (G1 : good [] [] s1 ev) by by eapply good_frame0.
    destruct (d_hold s) eqn:Hh.
    + unfold shutdown_continue. apply wp_bnd, wp_get. apply wp_bnd, wp_check; [done|]. intros _. change (d_hold s1) with (d_hold s). rewrite Hh. wps. split; [done|]. left.
      destruct A. split; try assumption. right. done.
    + assert (A1 : phAc n false s1 ev) by (destruct A; split; try assumption; by right).
      eapply wp_mono; [by apply cont_A|]. cbv beta. intros [] s2 ev2 (G2 & B2 & L2). split; [done|]. auto.
  - destruct Ph as [A|[[B L]|C]]; [|rewrite (pb_hold _ _ _ _ _ B) in U; done|rewrite (pc_hold _ _ C) in U; done].
    apply wp_bnd, wp_modify. set (s1 := w_hold s false). assert (G1 : good [] [] s1 ev) by by eapply good_frame0. apply wp_bnd, wp_get.
    pose proof (phA_hold _ _ A) as A1. destruct (pa_st _ _ _ _ A) as [Hs|[Hs _]].
    + rewrite bool_decide_eq_false_2 by (change (d_st s1) with (d_st s); congruence). cbn [when]. wps. split; [done|]. left. destruct A1. split; try assumption. by left.
    + rewrite bool_decide_eq_true_2 by done. cbn [when]. eapply wp_mono; [by apply cont_A|]. cbv beta. intros [] s2 ev2 (G2 & B2 & L2). split; [done|]. auto.
  - apply wp_bnd, wp_get. destruct (d_q s) as [|m r] eqn:Hq; [by wps|]. apply wp_bnd, wp_modify. destruct (un_of m) as [x|] eqn:Hm.
    + assert (G1 : good [x] [] (w_q s r) ev) by (eapply good_pop; done).
      assert (Hp : pending s = x :: omap un_of r) by (unfold pending; rewrite Hq; cbn; by rewrite Hm).
      apply (deliver_ok n base ext su m x); [|done|].
      * split; [done|]. destruct Ph as [A|[[B L]|C]].
        -- left. destruct A. split; assumption.
        -- right. split; [|exact L]. destruct B. split; try assumption. rewrite Hp in pb_ord. exact pb_ord.
        -- exfalso. assert (live s x) as Hl by (apply (g_msg _ _ _ _ _ _ G); rewrite Hp; left). unfold live in Hl. destruct (owner s x); [rewrite (pc_own _ _ C) in Hl|rewrite (pc_points _ _ C) in Hl]; by apply elem_of_nil in Hl.
      * change (isext (w_q s r) x) with (isext s x). destruct (g_kind _ _ _ _ _ _ G x) as [K1 K2]. destruct m as [y|y|y k]; cbn in Hm; inversion Hm; subst.
        -- rewrite K1; [done|]. rewrite Hq. left.
        -- rewrite K2; [done|]. rewrite Hq. left.
    + destruct m as [y|y|y k]; [done..|]. assert (G1 : good [] [] (w_q s r) ev) by (eapply good_pop_call; done).
      assert (Hp : pending (w_q s r) = pending s) by (unfold pending; by rewrite Hq).
      assert (Hext : isext s y = true /\ y < len s). { destruct (g_call _ _ _ _ _ _ G y k) as [? ?]; [rewrite Hq; left|done]. } destruct Hext as [Hext Hy].
      cbn [deliver]. apply wp_bnd, wp_get. unfold on_call. apply wp_bnd, wp_get. destruct (d_alive (w_q s r) && _ && _ && _) eqn:Hc.
      * apply andb_true_iff in Hc as [Hc Hf]. apply bool_decide_eq_true in Hf as [z Hz]. apply find_last_some in Hz as [Hz1 Hz2]. apply same_spec in Hz2.
        wps. split; [|apply (phase_other s ev); [done|done|exact Hp|noev|exact Ph]]. eapply good_frame; [done|done|done|]. cbn. split; [by apply (g_es _ _ _ _ _ _ G)|].
        destruct Ph as [A|[[B L]|C]]; [apply (pa_ev _ _ _ _ A)| |exfalso; change (z ∈ d_points s) in Hz1; rewrite (pc_points _ _ C) in Hz1; by apply elem_of_nil in Hz1].
        exfalso. change (z ∈ d_points s) in Hz1. pose proof (g_pts _ _ _ _ _ _ G z Hz1) as Hzl. apply (pb_pts _ _ _ _ _ B) in Hz1 as [Hz1 _].
        apply (g_anon _ _ _ _ _ _ G) in Hz1 as [Hz1 _]; [|done]. change (key s z = key s y) in Hz2. unfold key in Hz2. unfold TeardownModel.isext in *. injection Hz2 as Hz3 Hz4. congruence.
      * wps. split; [eapply good_frame; [done|done|done|done]|]. apply (phase_other s ev); [done|done|exact Hp|noev|exact Ph].
  - apply wp_bnd, wp_get. destruct (d_fq s) as [|m r] eqn:Hq; [by wps|]. apply wp_bnd, wp_modify. destruct m as [x|x|a k]; cbn [fdeliver].
    + wps. split; [exact (good_fsub n ext [] [] s ev x r G Hq)|]. apply (phase_other s ev); [done|done|done| |exact Ph]. by intros [].
    + apply wp_bnd, wp_get. destruct (good_fcommit n ext [] [] s ev x r G Hq) as (F1 & F2 & F3). change (find_last (same (w_fq s r) x) (d_fpts (w_fq s r))) with (find_last (same s x) (d_fpts s)). rewrite F1.
      apply wp_bnd, wp_check; [intros _; by apply bool_decide_eq_true|intros _]. wps. split; [exact F3|]. apply (phase_other s ev); [done|done|done|noev|exact Ph].
    + wps. split; [exact (good_fpost n ext [] [] s ev a k r G Hq)|]. apply (phase_other s ev); [done|done| | |exact Ph]; [exact (pending_calls s _ k)|]. by intros [].
  - wps. split; [by apply good_post|]. apply (phase_other s ev); [done|done|done| |exact Ph]. by intros [].
  - apply wp_bnd, wp_get. destruct (decide (d_st s = DDown)) as [Hs|Hs].
    + rewrite bool_decide_eq_true_2 by done. cbn [when]. destruct Ph as [A|[[B L]|C]].
      * destruct (pa_st _ _ _ _ A) as [?|[? _]]; congruence.
      * rewrite (pb_st _ _ _ _ _ B) in Hs. done.
      * wps. split; [eapply good_frame; [done|done|done|]; apply (pc_ev _ _ C)|]. right; right. destruct C. split; try assumption. rewrite !elem_snoc. split; left; by apply pc_ev.
    + rewrite bool_decide_eq_false_2 by done. cbn [when]. by wps.
Qed.

(** ** The beginning. *)
Lemma first_snoc m : first_infos base (seq lifetime (S m)) = first_infos base (seq lifetime m) ++ plug_infos base (lifetime + m).
Proof. unfold first_infos. rewrite seq_S, fmap_app, concat_app. f_equal. apply app_nil_r. Qed.
Lemma plug_lookup p k : k < own_count base p -> plug_infos base p !! k = Some (DInfo (HPlug p k) 0 (Some p) false).
Proof. intros Hk. unfold plug_infos. rewrite list_lookup_fmap, lookup_seq_lt by done. done. Qed.
Lemma plug_length p : List.length (plug_infos base p) = own_count base p.
Proof. unfold plug_infos. by rewrite fmap_length, seq_length. Qed.
Lemma offset_next m : offset base (lifetime + m) = List.length (first_infos base (seq lifetime m)).
Proof. unfold offset. by replace (lifetime + m - lifetime) with m by lia. Qed.
Lemma first_at m p k : lifetime <= p < lifetime + m -> k < own_count base p -> first_infos base (seq lifetime m) !! (offset base p + k) = Some (DInfo (HPlug p k) 0 (Some p) false).
Proof.
  induction m as [|m IH]; intros Hp Hk; [lia|]. rewrite first_snoc. destruct (decide (p = lifetime + m)) as [->|Hne].
  - rewrite offset_next. rewrite lookup_app_r by lia. rewrite Nat.add_comm, Nat.add_sub. by apply plug_lookup.
  - rewrite lookup_app_l; [apply IH; [lia|done]|]. apply lookup_lt_is_Some. rewrite IH; [eauto|lia|done].
Qed.
Lemma first_inv m x : x < List.length (first_infos base (seq lifetime m)) -> exists p k, lifetime <= p < lifetime + m /\ k < own_count base p /\ x = offset base p + k.
Proof.
  induction m as [|m IH]; [cbn; lia|]. rewrite first_snoc, app_length, plug_length. intros Hx. destruct (decide (x < List.length (first_infos base (seq lifetime m)))) as [H|H].
  - destruct (IH H) as (p & k & H1 & H2 & H3). exists p, k. split; [lia|done].
  - exists (lifetime + m), (x - List.length (first_infos base (seq lifetime m))). split; [lia|]. split; [lia|]. rewrite offset_next. lia.
Qed.
Notation s0 := (dinit n base).
Lemma init_len hold : len (s0 hold) = List.length (first_infos base (seq lifetime (n - lifetime))).
Proof. done. Qed.
Lemma init_at hold p k : lifetime <= p < n -> k < own_count base p -> info (s0 hold) (offset base p + k) = DInfo (HPlug p k) 0 (Some p) false.
Proof. intros Hp Hk. rewrite info_lookup. change (d_infos (s0 hold)) with (first_infos base (seq lifetime (n - lifetime))). rewrite (first_at _ p k); [done|lia|done]. Qed.
Lemma init_inv hold x : x < len (s0 hold) -> exists p k, lifetime <= p < n /\ k < own_count base p /\ x = offset base p + k.
Proof. intros Hx. apply first_inv in Hx as (p & k & H1 & H2 & H3). assert (Hn : 4 <= n) by apply su. exists p, k. split; [lia|done]. Qed.
Lemma init_lt hold p k : lifetime <= p < n -> k < own_count base p -> offset base p + k < len (s0 hold).
Proof. intros Hp Hk. apply lookup_lt_is_Some. change (d_infos (s0 hold)) with (first_infos base (seq lifetime (n - lifetime))). rewrite (first_at _ p k); [eauto|lia|done]. Qed.
Lemma init_own hold p x : x ∈ d_own (s0 hold) p <-> exists k, lifetime <= p < n /\ k < own_count base p /\ x = offset base p + k.
Proof.
  cbn. destruct (decide (lifetime <= p < n)) as [Hp|Hp].
  - rewrite bool_decide_eq_true_2 by done. rewrite elem_of_seq. split.
    + intros Hx. exists (x - offset base p). split; [done|]. lia.
    + intros (k & _ & H1 & H2). lia.
  - rewrite bool_decide_eq_false_2 by done. rewrite elem_of_nil. split; [done|]. by intros (k & H & _).
Qed.
Lemma init_live hold x : live (s0 hold) x <-> x < len (s0 hold).
Proof.
  split.
  - unfold live. destruct (owner (s0 hold) x) eqn:E; [intros _; by apply owner_lt in E|]. cbn. rewrite elem_of_seq. lia.
  - intros Hx. apply init_inv in Hx as (p & k & H1 & H2 & ->). unfold live. rewrite init_at by done. cbn [i_owner]. apply init_own. by exists k.
Qed.
Lemma init_un hold x : un (s0 hold) x = false.
Proof.
  destruct (decide (x < len (s0 hold))) as [Hx|Hx].
  - apply init_inv in Hx as (p & k & H1 & H2 & ->). by rewrite init_at.
  - rewrite info_lookup, lookup_ge_None_2 by lia. done.
Qed.
Lemma sorted_seq a m : StronglySorted lt (seq a m).
Proof. revert a. induction m as [|m IH]; intros a; cbn; [constructor|]. constructor; [apply IH|]. apply Forall_forall. intros x. rewrite elem_of_seq. lia. Qed.
Lemma init_good hold : good [] [] (s0 hold) [].
Proof.
  assert (Hn : 4 <= n) by apply su.
  assert (HX : forall x, isext (s0 hold) x = false \/ len (s0 hold) <= x).
  { intros x. destruct (decide (x < len (s0 hold))) as [Hx|Hx]; [|right; lia]. left. apply init_inv in Hx as (p & k & H1 & H2 & ->). unfold TeardownModel.isext. rewrite init_at by done. apply su. }
  split; try done.
  - intros p x (k & H1 & H2 & ->)%init_own. by rewrite init_at.
  - intros x. cbn -[info]. rewrite elem_of_seq. lia.
  - apply sorted_seq.
  - intros x. rewrite init_live. cbn [d_map dinit]. rewrite elem_of_seq. change (List.length (first_infos base (seq lifetime (n - lifetime)))) with (len (s0 hold)). split.
    + intros Hx. split; [lia|]. destruct (HX x); [done|lia].
    + intros [Hx _]. lia.
  - intros x Hx _. by apply init_live.
  - intros x. rewrite init_un. cbn. rewrite elem_of_nil. split; [done|]. by intros [_ ?].
  - cbn. constructor.
  - intros x. split; intros H; by apply elem_of_nil in H.
  - intros x y [Hx|Hx] [Hy|Hy]; try by apply elem_of_nil in Hx. 2: by apply elem_of_nil in Hy.
    apply init_live, init_inv in Hx as (p & k & H1 & H2 & ->). apply init_live, init_inv in Hy as (q & j & H3 & H4 & ->). unfold key. rewrite !init_at by done. cbn. intros E. by inversion E.
  - intros x y Hx Hy Hk Hlt _. cbn [d_points dinit] in Hx, Hy. apply elem_of_seq in Hx, Hy. change (List.length (first_infos base (seq lifetime (n - lifetime)))) with (len (s0 hold)) in *.
    destruct (init_inv hold x) as (p & k & H1 & H2 & ->); [lia|]. destruct (init_inv hold y) as (q & j & H3 & H4 & ->); [lia|]. unfold key in Hk. rewrite !init_at in Hk by done. inversion Hk; subst. lia.
  - intros x Hx. apply init_inv in Hx as (p & k & H1 & H2 & ->). by rewrite init_at.
  - intros x q Hq. pose proof (owner_lt _ _ _ Hq) as Hx. destruct (HX x) as [E|]; [|lia]. apply init_inv in Hx as (p & k & H1 & H2 & ->). rewrite init_at in * by done. cbn in Hq. inversion Hq; subst. right. split; [done|by exists k].
  - intros x. assert (Hof : offset base lifetime = 0) by (unfold offset; by rewrite Nat.sub_diag). assert (Hc : own_count base lifetime = 3) by done. split.
    + intros Hx. pose proof (owner_lt _ _ _ Hx) as Hl. apply init_inv in Hl as (p & k & H1 & H2 & ->). rewrite init_at in Hx by done. cbn in Hx. inversion Hx; subst. rewrite Hof. rewrite Hc in H2. lia.
    + intros Hx. pose proof (init_at hold lifetime x) as H. rewrite Hof, Hc in H. cbn [Nat.add] in H. rewrite H; [done|unfold lifetime; lia|done].
  - intros x. cbn -[info live]. rewrite elem_of_nil. split; [done|]. intros [[Hx|Hx] E]; [|done]. apply init_live in Hx. destruct (HX x); [congruence|lia].
  - split; [|split]; intros x Hx; by apply elem_of_nil in Hx.
  - intros x. rewrite init_un. rewrite elem_of_nil. done.
  - intros x. rewrite init_live, elem_of_nil. split; [done|]. lia.
  - intros x Hx E. destruct (HX x); [congruence|lia].
  - intros x m H. by apply elem_of_nil in H.
  - intros x [H|H]; by apply elem_of_nil in H.
  - intros x H. by apply elem_of_nil in H.
  - intros x H. by apply elem_of_nil in H.
Qed.
Lemma init_inv_ok hold : inv (s0 hold) [].
Proof.
  assert (Hn : 4 <= n) by apply su. assert (Hb : 1 <= base starter) by apply su. split; [apply init_good|]. left. split; try done.
  - by left.
  - intros p Hp. destruct (d_own (s0 hold) p) as [|x l] eqn:E; [done|]. assert (x ∈ d_own (s0 hold) p) as Hx by (rewrite E; left). apply init_own in Hx as (k & H & _). lia.
  - intros p. cbn. case_bool_decide; [apply NoDup_seq|constructor].
  - cbn. rewrite bool_decide_eq_true_2 by (unfold lifetime; lia). done.
  - cbn [d_points dinit]. apply elem_of_seq. change (List.length (first_infos base (seq lifetime (n - lifetime)))) with (len (s0 hold)).
    pose proof (init_lt hold lifetime 0) as H. unfold offset in H. rewrite Nat.sub_diag in H. cbn -[dinit] in H.
    assert (0 < len (s0 hold)); [|lia]. apply H; [unfold lifetime; lia|]. change (own_count base lifetime) with 3. lia.
  - intros p x Hx. apply (own_len _ _ _ _ (init_good hold)) in Hx. cbn [d_points dinit]. apply elem_of_seq. split; [lia|exact Hx].
  - intros x. by rewrite init_un.
  - assert (Hc : own_count base starter = base starter) by (unfold own_count; destruct (decide (starter = lifetime)) as [E|]; [unfold TeardownModel.starter, lifetime in E; lia|done]).
    exists (offset base starter + 0), 0. split; [apply init_own; exists 0; split; [unfold TeardownModel.starter, lifetime; lia|split; [lia|done]]|].
    rewrite init_at; [done|unfold TeardownModel.starter, lifetime; lia|lia].
  - split; [|split]; [| |intros p]; apply not_elem_of_nil.
Qed.
Lemma run_inv_ok hold ops s ev : used n base ext hold ops -> ran n base ext hold ops s ev -> inv s ev.
Proof.
  intros U R. refine (wp_run (dprog n ext) (usage ext) inv _ ops (s0 hold) [] s ev (init_inv_ok hold) U R).
  intros o s1 ev1 U1 I1. pose proof (dprog_ok o s1 ev1 U1 I1) as H. unfold wp in *. destruct (dprog n ext o s1) as [[[s2 e] a]| |]; done.
Qed.
Lemma run_safe_ok hold ops : used n base ext hold ops -> exists s ev, ran n base ext hold ops s ev.
Proof.
  intros U. destruct (wp_run_safe (dprog n ext) (usage ext) inv (fun o s ev => dprog_ok o s ev) ops (s0 hold) [] (init_inv_ok hold) U) as (s & e & R & _).
  by exists s, e.
Qed.
End steps.
