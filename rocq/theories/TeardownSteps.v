(** Teardown: the phases and the steps of the actor. *)
From stdpp Require Import base list gmap.
From Coq Require Import Sorting.Sorted.
From Verif Require Import Base Prog TeardownModel TeardownSpec TeardownProofs.
Open Scope nat_scope.
Local Open Scope prog_scope.
Notation len s := (List.length (d_infos s)).
Notation un s x := (i_un (info s x)).
Notation owner s x := (i_owner (info s x)).

Lemma filter_ext_in {A} (f g : A -> Prop) `{!forall x, Decision (f x), !forall x, Decision (g x)} (l : list A) : (forall x, x ∈ l -> f x <-> g x) -> filter f l = filter g l.
Proof.
  induction l as [|x l IH]; intros Hfg; [done|]. rewrite !filter_cons. assert (f x <-> g x) by (apply Hfg; left).
  rewrite IH by (intros y Hy; apply Hfg; by right). destruct (decide (f x)), (decide (g x)); tauto.
Qed.

Section steps.
Context (n : nat) (base : nat -> nat) (ext : N -> bool) (su : setup n base ext).
Notation P := (prog dstate dev).
Notation isext := (isext ext).
Notation starter := (starter n).
Notation good := (good n ext).
Notation mark := (mark ext).
Notation gone := (gone ext).
Notation unsubscribe_info := (unsubscribe_info ext).

(** ** A number of subscriptions becomes UNSUBSCRIBING. *)
Definition rest (s : dstate) := (d_st s, d_alive s, d_life s, d_act s, d_own s, d_points s, d_deact s, d_map s, d_fq s, d_fpts s, d_fmap s, d_hold s, d_ishut s, d_lshut s).
Record fr (L : list nat) (s s' : dstate) : Prop := Fr {
  fr_rest : rest s' = rest s;
  fr_len : len s' = len s;
  fr_info : forall y, with_un (info s' y) = with_un (info s y);
  fr_un : forall y, un s' y = true <-> un s y = true \/ y ∈ L;
  fr_q : pending s' = pending s ++ filter (fun y => un s y = false) L
}.
Lemma fr_nil s : fr [] s s.
Proof. split; try done; [|cbn; by rewrite app_nil_r]. intros y. rewrite elem_of_nil. tauto. Qed.
Lemma fr_one s x : x < len s -> un s x = false -> fr [x] s (mark s x).
Proof.
  intros Hx Hu. split; [done|apply mark_len| | |].
  - intros y. rewrite info_mark by done. by destruct (decide (y = x)) as [->|].
  - intros y. rewrite mark_un, elem_of_list_singleton by done. done.
  - rewrite mark_pending. by rewrite filter_cons_True.
Qed.
Lemma fr_same s x : un s x = true -> fr [x] s s.
Proof.
  intros Hu. split; try done.
  - intros y. rewrite elem_of_list_singleton. split; [auto|]. by intros [?| ->].
  - rewrite filter_cons_False by congruence. cbn. by rewrite app_nil_r.
Qed.
Lemma fr_cons x L s s1 s2 : x ∉ L -> fr [x] s s1 -> fr L s1 s2 -> fr (x :: L) s s2.
Proof.
  intros Hx F1 F2. destruct F1, F2. split; try congruence.
  - intros y. rewrite fr_un1, fr_un0, !elem_of_cons, elem_of_nil. tauto.
  - rewrite fr_q1, fr_q0, <- (assoc_L (++)). f_equal. replace (x :: L) with ([x] ++ L) by done. rewrite filter_app. f_equal.
    apply filter_ext_in. intros y Hy. assert (un s1 y = true <-> un s y = true) as H.
    { rewrite fr_un0, elem_of_list_singleton. split; [|auto]. intros [?| ->]; done. }
    destruct (un s1 y), (un s y); intuition congruence.
Qed.
Lemma unsub_info Y Z s ev x : good Y Z s ev -> x < len s ->
  wp true (unsubscribe_info x) (fun _ s' ev' => good Y Z s' ev' /\ fr [x] s s' /\ (forall e, e ∈ ev' -> e ∈ ev \/ e = EUnsubReq x) /\ (forall e, e ∈ ev -> e ∈ ev')) s ev.
Proof.
  intros G Hx. unfold TeardownModel.unsubscribe_info. wps.
  - apply negb_true_iff in H. split; [|split; [|split]].
    + apply (good_mark n ext Y Z s ev x); [done|by apply (g_dead _ _ _ _ _ _ G)|done].
    + by apply fr_one.
    + intros e. rewrite elem_snoc. tauto.
    + intros e. rewrite elem_snoc. tauto.
  - apply negb_false_iff in H. split; [done|]. split; [by apply fr_same|]. auto.
Qed.
Lemma each_unsub Y Z l s ev : good Y Z s ev -> NoDup l -> (forall x, x ∈ l -> x < len s) ->
  wp true (each l unsubscribe_info) (fun _ s' ev' => good Y Z s' ev' /\ fr l s s' /\ (forall e, e ∈ ev' -> e ∈ ev \/ exists x, e = EUnsubReq x) /\ (forall e, e ∈ ev -> e ∈ ev')) s ev.
Proof.
  intros G Hn Hl. revert s ev G Hl. induction Hn as [|x l Hx Hn IH]; intros s ev G Hl; cbn [each]; wps.
  - split; [done|]. split; [apply fr_nil|]. auto.
  - wp_use (apply (unsub_info Y Z s ev x); [done|apply Hl; left]). intros [] s1 ev1 (G1 & F1 & E1 & E2).
    wp_use (apply IH; [exact G1|]). { intros y Hy. rewrite (fr_len _ _ _ F1). apply Hl. by right. }
    intros [] s2 ev2 (G2 & F2 & E3 & E4). split; [done|]. split; [by eapply fr_cons|]. split; [|auto].
    intros e He. apply E3 in He as [He|?]; [|auto]. apply E1 in He as [?|?]; [auto|]. right. by exists x.
Qed.

(** ** Before the plugins are deactivated; [c]: between the steps. *)
Record phAc (c : bool) (s : dstate) (ev : list dev) : Prop := PhA {
  pa_st : d_st s = DUp \/ d_st s = DShutting /\ (c = true -> d_hold s = true);
  pa_alive : d_alive s = true;
  pa_life : d_life s = true;
  pa_act : forall p, d_act s p = bool_decide (p < n);
  pa_deact : d_deact s = ∅;
  pa_ishut : d_ishut s = true;
  pa_lshut : d_lshut s = true;
  pa_own : forall p, n <= p -> d_own s p = [];
  pa_nd : forall p, NoDup (d_own s p);
  pa_own1 : d_own s lifetime = [0; 1; 2];
  pa_pts0 : 0 ∈ d_points s;
  pa_live : forall p x, x ∈ d_own s p -> x ∈ d_points s;
  pa_un : forall x, un s x = true -> exists t, i_type (info s x) = HUser t;
  pa_start : exists x k, x ∈ d_own s starter /\ i_type (info s x) = HPlug starter k;
  pa_ev : EDeact ∉ ev /\ EDown ∉ ev /\ forall p, EPlugDown p ∉ ev
}.
Notation phA := (phAc true).
(** ** While they are deactivated; [X]: plugins about to lose their actor. *)
Record phB (X Y : list nat) (s : dstate) (ev : list dev) : Prop := PhB {
  pb_st : d_st s = DShutting;
  pb_alive : d_alive s = true;
  pb_hold : d_hold s = false;
  pb_ishut : d_ishut s = false;
  pb_lshut : d_lshut s = true;
  pb_act : forall p, p ∉ X -> d_act s p = bool_decide (p ∈ d_deact s);
  pb_one : lifetime ∈ d_deact s;
  pb_deact : forall p, p ∈ d_deact s -> p < n /\ d_own s p <> [] /\ (p <> lifetime -> forall x, x ∈ d_own s p -> un s x = true);
  pb_own : forall p, p ∉ d_deact s -> d_own s p = [];
  pb_pts : forall x, x ∈ d_points s -> owner s x = None /\ un s x = true;
  pb_un0 : un s 0 = true -> d_points s = [];
  pb_life : d_life s = false -> d_deact s = {[lifetime]} /\ d_points s = [];
  pb_ord : (un s 0 = false /\ un s 1 = false /\ un s 2 = false /\ d_own s lifetime = [0; 1; 2])
    \/ (d_own s lifetime = [0; 1; 2] /\ exists v, Y ++ pending s = v ++ [2; 1; 0] /\ forall x, x ∈ v -> 3 <= x)
    \/ (d_own s lifetime = [0; 1] /\ Y ++ pending s = [1; 0])
    \/ (d_own s lifetime = [0] /\ Y ++ pending s = [0]);
  pb_ev : EDeact ∈ ev /\ EDown ∉ ev /\ forall p, EPlugDown p ∈ ev <-> p < n /\ p ∉ d_deact s
}.
Definition lastB (s : dstate) : Prop := d_points s = [] -> d_deact s = {[lifetime]} -> un s 0 = true.
(** ** After SHUT_DOWN. *)
Record phC (s : dstate) (ev : list dev) : Prop := PhC {
  pc_st : d_st s = DDown;
  pc_own : forall p, d_own s p = [];
  pc_points : d_points s = [];
  pc_deact : d_deact s = ∅;
  pc_hold : d_hold s = false;
  pc_ev : EDeact ∈ ev /\ EDown ∈ ev
}.

Definition onward (s : dstate) (ev : list dev) (s' : dstate) (ev' : list dev) : Prop :=
  (forall y, i_addr (info s' y) = i_addr (info s y)) /\ (forall e, e ∈ ev -> e ∈ ev').
Lemma onward_addr s ev s' ev' : onward s ev s' ev' -> forall y, i_addr (info s' y) = i_addr (info s y).
Proof. by intros []. Qed.
Lemma onward_ev s ev s' ev' e : onward s ev s' ev' -> e ∈ ev -> e ∈ ev'.
Proof. intros [_ H]. apply H. Qed.
Lemma onward_refl s ev : onward s ev s ev.
Proof. by split. Qed.
Lemma onward_trans s ev s1 ev1 s2 ev2 : onward s ev s1 ev1 -> onward s1 ev1 s2 ev2 -> onward s ev s2 ev2.
Proof. intros [H1 H2] [H3 H4]. split; [|auto]. intros y. by rewrite H3. Qed.
Lemma onward_snoc s ev s1 ev1 s2 e : onward s ev s1 ev1 -> d_infos s2 = d_infos s1 -> onward s ev s2 (ev1 ++ [e]).
Proof. intros [H1 H2] H. split; [intros y; unfold info; rewrite H; apply H1|]. intros e' He. apply elem_snoc. auto. Qed.
Lemma onward_same s ev s1 ev1 s2 : onward s ev s1 ev1 -> d_infos s2 = d_infos s1 -> onward s ev s2 ev1.
Proof. intros [H1 H2] H. split; [intros y; unfold info; rewrite H; apply H1|done]. Qed.
Lemma rest_eqs s s' : rest s' = rest s -> d_st s' = d_st s /\ d_alive s' = d_alive s /\ d_life s' = d_life s /\ d_act s' = d_act s /\ d_own s' = d_own s /\
  d_points s' = d_points s /\ d_deact s' = d_deact s /\ d_hold s' = d_hold s /\ d_ishut s' = d_ishut s /\ d_lshut s' = d_lshut s.
Proof. unfold rest. intros H. inversion H. done. Qed.
Lemma fr_owner L s s' y : fr L s s' -> owner s' y = owner s y.
Proof. intros F. pose proof (fr_info _ _ _ F y) as H. unfold with_un in H. by inversion H. Qed.
Lemma fr_type L s s' y : fr L s s' -> i_type (info s' y) = i_type (info s y).
Proof. intros F. pose proof (fr_info _ _ _ F y) as H. unfold with_un in H. by inversion H. Qed.
Lemma un_pending Y Z s ev x : good Y Z s ev -> x ∈ Y ++ pending s -> un s x = true.
Proof. intros G Hx. by apply (g_msg _ _ _ _ _ _ G) in Hx as [_ ?]. Qed.

(** Lifetime takes back its own subscriptions. *)
Lemma life_down X Y Z s ev : good Y Z s ev -> phB X Y s ev -> d_act s lifetime = true -> d_life s = true -> d_points s = [] ->
  wp true (base_deactivate ext lifetime) (fun _ s' ev' => good Y Z s' ev' /\ phB X Y s' ev' /\ un s' 0 = true /\ rest s' = rest s /\ onward s ev s' ev') s ev.
Proof.
  intros G B Ha Hlf Hp. unfold base_deactivate. apply wp_bnd, wp_get. rewrite Ha. cbn [when]. rewrite bool_decide_eq_false_2.
  2: { destruct (pb_deact _ _ _ _ B _ (pb_one _ _ _ _ B)) as (_ & H1 & _). done. }
  apply wp_bnd, wp_check; [done|]. intros _.
  - wp_use (apply (each_unsub Y Z (rev (d_own s lifetime)) s ev G)).
    { destruct (pb_ord _ _ _ _ B) as [(_ & _ & _ & ->)|[(-> & _)|[(-> & _)|(-> & _)]]]; cbn; repeat constructor; rewrite ?elem_of_cons, ?elem_of_nil; lia. }
    { intros x Hx. apply elem_rev, (g_own _ _ _ _ _ _ G) in Hx. by apply owner_lt in Hx. }
    intros [] s1 ev1 (G1 & F1 & E1 & E2). destruct (rest_eqs _ _ (fr_rest _ _ _ F1)) as (R1 & R2 & R3 & R4 & R5 & R6 & R7 & R8 & R9 & R10).
    assert (H0 : un s1 0 = true).
    { apply (fr_un _ _ _ F1). right. apply elem_rev. destruct (pb_ord _ _ _ _ B) as [(_ & _ & _ & ->)|[(-> & _)|[(-> & _)|(-> & _)]]]; left. }
    split; [done|]. split; [|split; [done|split; [apply F1|split; [|done]]]].
    2: { intros y. pose proof (fr_info _ _ _ F1 y) as H. unfold with_un in H. by inversion H. }
    destruct B. split; rewrite ?R1, ?R2, ?R3, ?R4, ?R5, ?R6, ?R7, ?R8, ?R9, ?R10; try assumption.
    + intros p Hd. destruct (pb_deact0 p Hd) as (D1 & D2 & D3). split; [done|]. split; [done|]. intros D4 x Hx. apply (fr_un _ _ _ F1). left. by apply D3.
    + intros x. rewrite Hp. by intros ?%elem_of_nil.
    + done.
    + right. rewrite (fr_q _ _ _ F1). destruct pb_ord0 as [(U0 & U1 & U2 & Ho)|[(Ho & v & Hv & V)|[(Ho & Hv)|(Ho & Hv)]]]; rewrite Ho; cbn [rev app].
      * left. split; [done|]. exists (Y ++ pending s). split.
        -- rewrite (assoc_L (++)). f_equal. rewrite !filter_cons_True by done. done.
        -- intros x Hx. apply (un_pending _ _ _ _ _ G) in Hx. destruct (decide (x < 3)); [|lia]. destruct x as [|[|[|]]]; [congruence..|lia].
      * left. split; [done|]. exists v. split; [|done]. rewrite !filter_cons_False; [cbn; by rewrite app_nil_r|..].
        all: rewrite (un_pending _ _ _ _ _ G); [done|]; rewrite Hv; apply elem_of_app; right; rewrite !elem_of_cons; tauto.
      * right; left. split; [done|]. rewrite !filter_cons_False; [cbn; by rewrite app_nil_r|..].
        all: rewrite (un_pending _ _ _ _ _ G); [done|]; rewrite Hv; rewrite !elem_of_cons; tauto.
      * right; right. split; [done|]. rewrite !filter_cons_False; [cbn; by rewrite app_nil_r|..].
        all: rewrite (un_pending _ _ _ _ _ G); [done|]; rewrite Hv; rewrite !elem_of_cons; tauto.
    + destruct pb_ev0 as (V1 & V2 & V3). split; [auto|]. split.
      * intros [?|[? ?]]%E1; done.
      * intros p. rewrite <- V3. split; [|auto]. intros [?|[? ?]]%E1; done.
Qed.

Lemma wp_if_true {A} b (m1 m2 : P A) Q s ev : b = true -> wp true m1 Q s ev -> wp true (if b then m1 else m2) Q s ev.
Proof. by intros ->. Qed.
Lemma wp_if_false {A} b (m1 m2 : P A) Q s ev : b = false -> wp true m2 Q s ev -> wp true (if b then m1 else m2) Q s ev.
Proof. by intros ->. Qed.
Lemma size_one (X : gset nat) x : x ∈ X -> size X = 1 <-> X = {[x]}.
Proof.
  intros Hx. split; [|intros ->; apply size_singleton]. intros H1. apply size_1_elem_of in H1 as [y Hy]. set_solver.
Qed.
Lemma cont_B X Y Z s ev : good Y Z s ev -> phB X Y s ev -> lifetime ∉ X -> d_life s = true ->
  wp true (shutdown_continue n ext) (fun _ s' ev' => good Y Z s' ev' /\ phB X Y s' ev' /\ lastB s' /\ d_deact s' = d_deact s /\ d_own s' = d_own s /\ d_act s' = d_act s /\ onward s ev s' ev') s ev.
Proof.
  intros G B HX Hlf. assert (Ho : d_own s lifetime <> []) by apply (pb_deact _ _ _ _ B _ (pb_one _ _ _ _ B)).
  unfold shutdown_continue. apply wp_bnd, wp_get. apply wp_bnd, wp_check; [intros _; apply bool_decide_eq_true, (pb_st _ _ _ _ B)|intros _].
  rewrite (pb_hold _ _ _ _ B), (pb_ishut _ _ _ _ B). cbn [when]. wps; [|by rewrite (pb_lshut _ _ _ _ B) in Heqb].
  unfold lifetime_shutdown. apply wp_assoc, wp_bnd, wp_get. rewrite (bool_decide_eq_false_2 (d_own s lifetime = [])), andb_false_r by done. unfold lifetime_unsubscribe.
  apply wp_assoc, wp_assoc, wp_bnd, wp_get. apply wp_assoc.
  eapply wp_call; [apply (wp_each true _ _ (fun s1 ev1 => s1 = s /\ ev1 = ev)); [|done]|].
  { intros x s1 ev1 Hx [-> ->]. apply elem_rev, (pb_pts _ _ _ _ B) in Hx as [Hx1 Hx2]. unfold anonymous. rewrite Hx1. unfold TeardownModel.unsubscribe_info. wps; [|done]. by rewrite Hx2 in H. }
  intros [] s1 ev1 [-> ->]. apply wp_assoc, wp_bnd, wp_get. destruct (decide (d_points s = [])) as [Hp|Hp].
  2: { rewrite (bool_decide_eq_false_2 (d_points s = [])) by done. cbn [andb when]. wps. split; [done|]. split; [done|]. split; [by intros ?|]. do 3 (split; [done|]). apply onward_refl. }
  rewrite (bool_decide_eq_true_2 (d_points s = [])) by done. destruct (decide (size (d_deact s) = 1)) as [Hs|Hs].
  2: { rewrite (bool_decide_eq_false_2 (size _ = 1)) by done. cbn [andb when]. wps. split; [done|]. split; [done|]. split; [intros _ E; by rewrite E, size_singleton in Hs|]. do 3 (split; [done|]). apply onward_refl. }
  rewrite (bool_decide_eq_true_2 (size _ = 1)) by done. cbn [andb when]. apply wp_assoc. apply (size_one _ lifetime) in Hs; [|apply (pb_one _ _ _ _ B)].
  wp_use (apply (life_down X Y Z s ev); [done|done| |done|done]).
  { rewrite (pb_act _ _ _ _ B) by done. apply bool_decide_eq_true, (pb_one _ _ _ _ B). }
  intros [] s1 ev1 (G1 & B1 & U1 & R & W). destruct (rest_eqs _ _ R) as (R1 & R2 & R3 & R4 & R5 & R6 & R7 & R8 & R9 & R10). wps.
  split; [by eapply good_frame0|]. split; [|split; [by intros ? ?|do 3 (split; [done|]); exact W]].
  destruct B1. split; try assumption. intros _. cbn. rewrite R6, R7. done.
Qed.

(** ** A message about an unsubscription reaches the plugin which made the
    subscription. *)
Lemma forget_find Y Z s ev x p : good Y Z s ev -> x ∈ d_own s p -> find_last (same s x) (d_own s p) = Some x.
Proof.
  intros G Hx. apply find_last_is; [done|by apply same_spec|]. intros y Hy Hs%same_spec.
  apply (g_key _ _ _ _ _ _ G); [left; by eapply own_live|left; by eapply own_live|done].
Qed.
Lemma forget_none Y Z s ev x p : good Y Z s ev -> live s x -> owner s x <> Some p -> find_last (same s x) (d_own s p) = None.
Proof.
  intros G Hx Hp. apply find_last_no. intros y Hy. destruct (same s x y) eqn:E; [|done]. apply same_spec in E. exfalso. apply Hp.
  assert (y = x) as <-; [|by apply (g_own _ _ _ _ _ _ G)]. apply (g_key _ _ _ _ _ _ G); [left; by eapply own_live|by left|done].
Qed.
Lemma forget_map_ok Y Z s ev x (Q : unit -> dstate -> list dev -> Prop) : good Y Z s ev -> live s x ->
  Q tt (if isext s x then s else w_map s (erase x (d_map s))) (ev ++ [EGone x]) -> wp true (forget_map ext x) Q s ev.
Proof.
  intros G Hx HQ. unfold forget_map. apply wp_bnd, wp_get. destruct (isext s x) eqn:E; cbn [negb when].
  - by wps.
  - apply wp_assoc, wp_bnd, wp_check; [|intros _; by wps]. intros _. apply bool_decide_eq_true. by apply (g_map _ _ _ _ _ _ G).
Qed.
Lemma gone_own_eq s x p : owner s x = Some p -> w_own (if isext s x then s else w_map s (erase x (d_map s)))
   (updn (d_own (if isext s x then s else w_map s (erase x (d_map s)))) p (erase x (d_own (if isext s x then s else w_map s (erase x (d_map s))) p))) = gone s x.
Proof. intros H. unfold TeardownProofs.gone. by rewrite H. Qed.
Lemma gone_rest s x : let s' := gone s x in d_st s' = d_st s /\ d_alive s' = d_alive s /\ d_life s' = d_life s /\ d_act s' = d_act s /\
  d_deact s' = d_deact s /\ d_hold s' = d_hold s /\ d_ishut s' = d_ishut s /\ d_lshut s' = d_lshut s.
Proof. unfold TeardownProofs.gone. destruct (isext s x), (owner s x); done. Qed.
Lemma gone_plug s x p : owner s x = Some p -> d_points (gone s x) = d_points s /\ d_own (gone s x) = updn (d_own s) p (erase x (d_own s p)).
Proof. intros H. unfold TeardownProofs.gone. rewrite H. by destruct (isext s x). Qed.
Lemma gone_anon s x : owner s x = None -> d_points (gone s x) = erase x (d_points s) /\ d_own (gone s x) = d_own s.
Proof. intros H. unfold TeardownProofs.gone. rewrite H. by destruct (isext s x). Qed.
Lemma gone_pending s x : pending (gone s x) = pending s.
Proof. unfold pending. by rewrite gone_q. Qed.
Lemma updn_eq {A} (f : nat -> A) p b : updn f p b p = b.
Proof. unfold updn. by destruct (decide (p = p)). Qed.
Lemma updn_ne {A} (f : nat -> A) p q b : q <> p -> updn f p b q = f q.
Proof. unfold updn. by destruct (decide (q = p)). Qed.
Lemma tail_last {A} (x : A) l v w : x :: l = v ++ w -> x ∉ w -> exists v', v = x :: v' /\ l = v' ++ w.
Proof. destruct v as [|y v]; cbn; intros H Hx; [subst; exfalso; apply Hx; left|]. inversion H; subst. by exists v. Qed.
Lemma not_lt3 x : 3 <= x -> x ∉ [2; 1; 0].
Proof. rewrite !elem_of_cons, elem_of_nil. lia. Qed.
(** The order of the last messages when another one is worked off. *)
Lemma ord_tail s x : 3 <= x ->
  (un s 0 = false /\ un s 1 = false /\ un s 2 = false /\ d_own s lifetime = [0; 1; 2])
    \/ (d_own s lifetime = [0; 1; 2] /\ exists v, [x] ++ pending s = v ++ [2; 1; 0] /\ forall x, x ∈ v -> 3 <= x)
    \/ (d_own s lifetime = [0; 1] /\ [x] ++ pending s = [1; 0])
    \/ (d_own s lifetime = [0] /\ [x] ++ pending s = [0]) ->
  (un s 0 = false /\ un s 1 = false /\ un s 2 = false /\ d_own s lifetime = [0; 1; 2])
    \/ (d_own s lifetime = [0; 1; 2] /\ exists v, [] ++ pending s = v ++ [2; 1; 0] /\ forall x, x ∈ v -> 3 <= x)
    \/ (d_own s lifetime = [0; 1] /\ [] ++ pending s = [1; 0])
    \/ (d_own s lifetime = [0] /\ [] ++ pending s = [0]).
Proof.
  intros Hx [?|[(Ho & v & Hv & V)|[(_ & H)|(_ & H)]]]; [by left| |inversion H; lia|inversion H; lia].
  right; left. split; [done|]. apply tail_last in Hv as (v' & -> & Hv); [|by apply not_lt3]. exists v'. split; [done|]. intros y Hy. apply V. by right.
Qed.

Lemma forget_B Z s ev x p : good [x] Z s ev -> phB [] [x] s ev -> lastB s -> owner s x = Some p -> p <> lifetime ->
  wp true (forget n ext p x) (fun b s' ev' => b = true /\ good [] (x :: Z) s' ev' /\ phB [] [] s' ev' /\ lastB s' /\ onward s ev s' ev' /\ EGone x ∈ ev') s ev.
Proof.
  intros G B L Hp Hne. assert (Hl : live s x /\ un s x = true) by (apply (g_msg _ _ _ _ _ _ G); left). destruct Hl as [Hl Hu].
  assert (Hx : x ∈ d_own s p) by (unfold live in Hl; by rewrite Hp in Hl).
  assert (Hd : p ∈ d_deact s). { destruct (decide (p ∈ d_deact s)); [done|]. rewrite (pb_own _ _ _ _ B p) in Hx by done. by apply elem_of_nil in Hx. }
  assert (Hx3 : 3 <= x). { destruct (decide (x < 3)) as [H|H]; [|lia]. apply (g_first _ _ _ _ _ _ G) in H. congruence. }
  assert (Hlf : d_life s = true). { destruct (d_life s) eqn:E; [done|]. apply (pb_life _ _ _ _ B) in E as [E _]. rewrite E in Hd. by apply elem_of_singleton in Hd. }
  unfold forget. apply wp_bnd, wp_get. rewrite (forget_find _ _ _ _ _ _ G Hx).
  apply wp_bnd, wp_check; [intros _; unfold anonymous; by rewrite Hp|intros _].
  rewrite (pb_act _ _ _ _ B p) by apply not_elem_of_nil. rewrite bool_decide_eq_true_2 by done. apply wp_bnd, wp_skip.
  apply wp_bnd. apply (forget_map_ok _ _ _ _ _ _ G Hl). apply wp_bnd, wp_modify. rewrite gone_own_eq by done.
  apply (good_gone _ _ [] Z) in G. destruct (gone_rest s x) as (R1 & R2 & R3 & R4 & R5 & R6 & R7 & R8). destruct (gone_plug s x p Hp) as [P1 P2].
  set (s1 := gone s x) in *. set (ev1 := ev ++ [EGone x]) in *.
  assert (HU : forall y, un s1 y = un s y) by (intros y; unfold s1; by rewrite gone_info).
  assert (HO : forall y, owner s1 y = owner s y) by (intros y; unfold s1; by rewrite gone_info).
  assert (W1 : onward s ev s1 ev1) by (eapply onward_snoc; [apply onward_refl|apply gone_infos]).
  assert (Hgx : EGone x ∈ ev1) by (apply elem_snoc; auto).
  assert (Hp1 : d_own s1 p = erase x (d_own s p)) by (rewrite P2; apply updn_eq).
  assert (Hq1 : forall q, q <> p -> d_own s1 q = d_own s q) by (intros q Hq; rewrite P2; by apply updn_ne).
  assert (Hsub : forall y, y ∈ d_own s1 p -> un s1 y = true).
  { intros y. rewrite Hp1, HU. intros [Hy _]%elem_erase. by apply (pb_deact _ _ _ _ B p Hd). }
  assert (Ho : (un s1 0 = false /\ un s1 1 = false /\ un s1 2 = false /\ d_own s1 lifetime = [0; 1; 2])
    \/ (d_own s1 lifetime = [0; 1; 2] /\ exists v, [] ++ pending s1 = v ++ [2; 1; 0] /\ forall x, x ∈ v -> 3 <= x)
    \/ (d_own s1 lifetime = [0; 1] /\ [] ++ pending s1 = [1; 0])
    \/ (d_own s1 lifetime = [0] /\ [] ++ pending s1 = [0])).
  { apply (ord_tail _ x Hx3). rewrite !HU, Hq1 by done. unfold s1. rewrite gone_pending. apply (pb_ord _ _ _ _ B). }
  assert (Hev : EDeact ∈ ev1 /\ EDown ∉ ev1 /\ forall q, EPlugDown q ∈ ev1 <-> q < n /\ q ∉ d_deact s).
  { destruct (pb_ev _ _ _ _ B) as (V1 & V2 & V3). unfold ev1. split; [apply elem_snoc; auto|]. split.
    - rewrite elem_snoc. by intros [?|?].
    - intros q. rewrite elem_snoc, V3. split; [by intros [?|?]|auto]. }
  apply wp_bnd, wp_get. destruct (decide (d_own s1 p = [])) as [He|He].
  - rewrite bool_decide_eq_true_2 by done. cbn [when]. unfold commit_deactivation. wps. 2: { exfalso. rewrite R1, (pb_st _ _ _ _ B) in H. by apply bool_decide_eq_false in H. }
    clear H. set (s2 := w_deact s1 (d_deact s1 ∖ {[p]})). destruct Hev as (V1 & V2 & V3).
    assert (G2 : good [] (x :: Z) s2 (ev1 ++ [EPlugDown p])).
    { eapply good_frame; [done|done|done|]. cbn. split; [done|]. rewrite V3. tauto. }
    eapply wp_mono; [apply (cont_B [p] [] (x :: Z) s2 (ev1 ++ [EPlugDown p]) G2)|].
    + destruct B. split; unfold s2; cbn [w_deact d_st d_alive d_hold d_ishut d_lshut d_act d_deact d_own d_points d_life]; rewrite ?R1, ?R2, ?R3, ?R4, ?R5, ?R6, ?R7, ?R8; try assumption.
      * intros q Hq. apply not_elem_of_cons in Hq as [Hq _]. rewrite pb_act0 by apply not_elem_of_nil. apply bool_decide_ext. rewrite elem_of_difference, elem_of_singleton. tauto.
      * apply elem_of_difference. rewrite elem_of_singleton. split; [done|]. intros E. by apply Hne.
      * intros q. rewrite elem_of_difference, elem_of_singleton. intros [Hq1' Hq2']. rewrite Hq1 by done. destruct (pb_deact0 q Hq1') as (D1 & D2 & D3).
        split; [done|]. split; [done|]. intros D4 y Hy. change (un s1 y = true). rewrite HU. by apply D3.
      * intros q. rewrite elem_of_difference, elem_of_singleton. intros Hq. destruct (decide (q = p)) as [->|Hqp]; [done|]. rewrite Hq1 by done. apply pb_own0. tauto.
      * rewrite P1. intros y Hy. change (owner s1 y = None /\ un s1 y = true). rewrite HO, HU. by apply pb_pts0.
      * change (un s1 0 = true -> d_points s1 = []). rewrite HU, P1. done.
      * congruence.
      * split; [apply elem_snoc; auto|]. split; [rewrite elem_snoc; by intros [?|?]|]. intros q. rewrite elem_snoc, V3, elem_of_difference, elem_of_singleton. split.
        -- intros [?|E]; [tauto|]. inversion E; subst. split; [|tauto]. by apply (pb_deact0 p).
        -- intros [Hq Hq']. destruct (decide (q = p)) as [->|Hqp]; [auto|]. left. split; [done|]. tauto.
    + rewrite elem_of_list_singleton. intros E. by apply Hne.
    + unfold s2. cbn. by rewrite R3.
    + cbv beta. intros [] s3 ev3 (G3 & B3 & L3 & D3 & O3 & A3 & W3). wps. split; [done|]. split; [by eapply good_frame0|].
      assert (W2 : onward s1 ev1 s2 (ev1 ++ [EPlugDown p])) by (eapply onward_snoc; [apply onward_refl|done]). pose proof (onward_trans _ _ _ _ _ _ W2 W3) as W4.
      split; [|split; [done|split; [eapply onward_same; [by eapply onward_trans|done]|by eapply (onward_ev s1 ev1)]]].
      destruct B3. split; try assumption. cbn [w_act d_act d_deact]. intros q _. rewrite D3. unfold s2. cbn [w_deact d_deact]. rewrite R5.
      destruct (decide (q = p)) as [->|Hqp].
      * rewrite updn_eq. symmetry. apply bool_decide_eq_false. set_solver.
      * rewrite updn_ne by done. rewrite pb_act0 by (by rewrite elem_of_list_singleton). rewrite D3. unfold s2. cbn [w_deact d_deact]. by rewrite R5.
  - rewrite bool_decide_eq_false_2 by done. cbn [when]. wps. split; [done|]. split; [done|]. split; [|split; [|done]].
    + destruct B. split; rewrite ?R1, ?R2, ?R3, ?R4, ?R5, ?R6, ?R7, ?R8; try assumption.
      * intros q Hq. destruct (decide (q = p)) as [->|Hqp].
        -- split; [by apply pb_deact0|]. split; [done|]. by intros _.
        -- rewrite Hq1 by done. destruct (pb_deact0 q Hq) as (D1 & D2 & D3). split; [done|]. split; [done|]. intros D4 y Hy. rewrite HU. by apply D3.
      * intros q Hq. rewrite Hq1 by (intros ->; done). by apply pb_own0.
      * rewrite P1. intros y Hy. rewrite HO, HU. by apply pb_pts0.
      * by rewrite HU, P1.
      * by rewrite P1.
    + unfold lastB. rewrite P1, R5, HU. done.
Qed.


(** The last subscriptions: those of lifetime. *)
Lemma forget_life Z s ev x : good [x] Z s ev -> phB [] [x] s ev -> lastB s -> owner s x = Some lifetime ->
  wp true (forget n ext lifetime x) (fun b s' ev' => b = true /\ good [] (x :: Z) s' ev' /\ (phB [] [] s' ev' /\ lastB s' \/ phC s' ev') /\ onward s ev s' ev' /\ EGone x ∈ ev') s ev.
Proof.
  intros G B L Hp. assert (Hl : live s x /\ un s x = true) by (apply (g_msg _ _ _ _ _ _ G); left). destruct Hl as [Hl Hu].
  assert (Hx : x ∈ d_own s lifetime) by (unfold live in Hl; by rewrite Hp in Hl).
  assert (Hx3 : x < 3) by by apply (g_first _ _ _ _ _ _ G).
  assert (Hc : (x = 2 /\ d_own s lifetime = [0; 1; 2] /\ pending s = [1; 0]) \/ (x = 1 /\ d_own s lifetime = [0; 1] /\ pending s = [0]) \/ (x = 0 /\ d_own s lifetime = [0] /\ pending s = [])).
  { destruct (pb_ord _ _ _ _ B) as [(U0 & U1 & U2 & Ho)|[(Ho & v & Hv & V)|[(Ho & Hv)|(Ho & Hv)]]].
    - destruct x as [|[|[|]]]; [congruence..|lia].
    - destruct v as [|y v]; [cbn in Hv; injection Hv as -> Hq; auto|]. cbn in Hv. injection Hv as -> Hq. assert (3 <= y) by (apply V; left). lia.
    - cbn in Hv. injection Hv as -> Hq. auto.
    - cbn in Hv. injection Hv as -> Hq. auto. }
  assert (Hmsg : forall y, live s y -> un s y = true -> y ∈ [x] ++ pending s) by (intros y H1 H2; apply (g_msg _ _ _ _ _ _ G); done).
  assert (HU0 : un s 0 = true).
  { destruct Hc as [(-> & _ & Hq)|[(-> & _ & Hq)|(-> & _ & Hq)]]; [| |done]; apply (un_pending _ _ _ _ 0 G); rewrite Hq; cbn; rewrite !elem_of_cons; tauto. }
  unfold forget. apply wp_bnd, wp_get. rewrite (forget_find _ _ _ _ _ _ G Hx).
  apply wp_bnd, wp_check; [intros _; unfold anonymous; by rewrite Hp|intros _].
  rewrite (pb_act _ _ _ _ B lifetime) by apply not_elem_of_nil. rewrite bool_decide_eq_true_2 by apply (pb_one _ _ _ _ B). apply wp_bnd, wp_skip.
  apply wp_bnd. apply (forget_map_ok _ _ _ _ _ _ G Hl). apply wp_bnd, wp_modify. rewrite gone_own_eq by done.
  apply (good_gone _ _ [] Z) in G. destruct (gone_rest s x) as (R1 & R2 & R3 & R4 & R5 & R6 & R7 & R8). destruct (gone_plug s x lifetime Hp) as [P1 P2].
  set (s1 := gone s x) in *. set (ev1 := ev ++ [EGone x]) in *.
  assert (HU : forall y, un s1 y = un s y) by (intros y; unfold s1; by rewrite gone_info).
  assert (HO : forall y, owner s1 y = owner s y) by (intros y; unfold s1; by rewrite gone_info).
  assert (W1 : onward s ev s1 ev1) by (eapply onward_snoc; [apply onward_refl|apply gone_infos]).
  assert (Hgx : EGone x ∈ ev1) by (apply elem_snoc; auto).
  assert (HQ : pending s1 = pending s) by (unfold s1; by rewrite gone_pending).
  assert (Hp1 : d_own s1 lifetime = erase x (d_own s lifetime)) by (rewrite P2; apply updn_eq).
  assert (Hq1 : forall q, q <> lifetime -> d_own s1 q = d_own s q) by (intros q Hq; rewrite P2; by apply updn_ne).
  assert (Hev : EDeact ∈ ev1 /\ EDown ∉ ev1 /\ forall q, EPlugDown q ∈ ev1 <-> q < n /\ q ∉ d_deact s).
  { destruct (pb_ev _ _ _ _ B) as (V1 & V2 & V3). unfold ev1. split; [apply elem_snoc; auto|]. split.
    - rewrite elem_snoc. by intros [?|?].
    - intros q. rewrite elem_snoc, V3. split; [by intros [?|?]|auto]. }
  apply wp_bnd, wp_get. destruct (decide (d_own s1 lifetime = [])) as [He|He].
  - assert (Hx0 : x = 0 /\ d_own s lifetime = [0] /\ pending s = []).
    { destruct Hc as [(-> & Hc & _)|[(-> & Hc & _)|Hc]]; [| |done]; rewrite Hp1, Hc in He; by vm_compute in He. }
    destruct Hx0 as (-> & Ho0 & Hp0).
    assert (Hnl : forall y, live s y -> un s y = true -> y = 0). { intros y H1 H2. specialize (Hmsg y H1 H2). rewrite Hp0 in Hmsg. cbn in Hmsg. by apply elem_of_list_singleton in Hmsg. }
    assert (Hpts : d_points s = []) by by apply (pb_un0 _ _ _ _ B).
    assert (Hdd : d_deact s = {[lifetime]}).
    { apply leibniz_equiv. intros q. rewrite elem_of_singleton. split; [|intros ->; apply (pb_one _ _ _ _ B)]. intros Hq.
      destruct (decide (q = lifetime)) as [->|Hq']; [done|]. exfalso. destruct (pb_deact _ _ _ _ B q Hq) as (_ & D2 & D3). specialize (D3 Hq').
      destruct (d_own s q) as [|y r] eqn:E; [done|]. assert (Hy : y ∈ d_own s q) by (rewrite E; left).
      assert (owner s y = Some q) as Hoy. { pose proof (g_own _ _ _ _ _ _ G q y) as H. rewrite Hq1, HO in H by done. auto. }
      assert (y = 0) as ->. { apply Hnl; [unfold live; by rewrite Hoy|]. apply D3. left. }
      congruence. }
    rewrite bool_decide_eq_true_2 by done. cbn [when]. unfold commit_deactivation. wps. 2: { exfalso. rewrite R1, (pb_st _ _ _ _ B) in H. by apply bool_decide_eq_false in H. }
    clear H. set (s2 := w_deact s1 (d_deact s1 ∖ {[lifetime]})). destruct Hev as (V1 & V2 & V3).
    assert (G2 : good [] (0 :: Z) s2 (ev1 ++ [EPlugDown lifetime])).
    { eapply good_frame; [done|done|done|]. cbn. split; [done|]. rewrite V3. intros [_ H]. apply H, (pb_one _ _ _ _ B). }
    assert (Hd2 : d_deact s2 = ∅) by (unfold s2; cbn; rewrite R5, Hdd; set_solver).
    unfold shutdown_continue. apply wp_bnd, wp_get. apply wp_bnd, wp_check; [intros _; apply bool_decide_eq_true; cbn; by rewrite R1, (pb_st _ _ _ _ B)|intros _].
    cbn [s2 w_deact d_hold d_ishut]. rewrite R6, R7, (pb_hold _ _ _ _ B), (pb_ishut _ _ _ _ B). cbn [when]. wps. 2: { exfalso. cbn in Heqb. by rewrite R8, (pb_lshut _ _ _ _ B) in Heqb. }
    unfold lifetime_shutdown. apply wp_assoc, wp_bnd, wp_get. cbn [s2 w_deact d_points d_own]. rewrite (bool_decide_eq_true_2 (d_points s1 = [])) by by rewrite P1.
    rewrite (bool_decide_eq_true_2 (d_own s1 lifetime = [])) by done. cbn [andb]. wps. unfold shutdown_finish. apply wp_bnd, wp_get.
    apply wp_bnd, wp_check; [intros _; apply bool_decide_eq_true; exact Hd2|intros _]. wps. split; [done|]. split; [|split; [right|]].
    + eapply good_frame0; [eapply (good_frame _ _ _ _ s2 _ _ EDown G2)|]; [done|done| |done]. cbn. split; [apply elem_snoc; auto|]. split; [rewrite elem_snoc; by intros [?|?]|].
      intros q Hq. rewrite elem_snoc, V3, Hdd, elem_of_singleton. destruct (decide (q = lifetime)) as [->|]; [auto|]. left. done.
    + split; cbn; try done.
      * intros q. destruct (decide (q = lifetime)) as [->|Hql]; [done|]. rewrite Hq1 by done. apply (pb_own _ _ _ _ B). by rewrite Hdd, elem_of_singleton.
      * by rewrite P1.
      * by rewrite R6, (pb_hold _ _ _ _ B).
      * rewrite !elem_snoc. auto.
    + split; [eapply onward_same; [eapply (onward_snoc _ _ s1 (ev1 ++ [EPlugDown lifetime])); [eapply (onward_snoc _ _ s1); [exact W1|done]|done]|done]|]. rewrite !elem_snoc. auto.
  - rewrite bool_decide_eq_false_2 by done. cbn [when]. wps. split; [done|]. split; [done|]. split; [left|done].
    assert (Ho : (d_own s1 lifetime = [0; 1] /\ [] ++ pending s1 = [1; 0]) \/ (d_own s1 lifetime = [0] /\ [] ++ pending s1 = [0])).
    { rewrite HQ, Hp1. destruct Hc as [(-> & Hc & Hq)|[(-> & Hc & Hq)|(-> & Hc & Hq)]]; rewrite Hc, Hq; [left; done|right; done|]. exfalso. rewrite Hp1, Hc in He. by apply He. }
    split.
    + destruct B. split; rewrite ?R1, ?R2, ?R3, ?R4, ?R5, ?R6, ?R7, ?R8; try assumption.
      * intros q Hq. destruct (decide (q = lifetime)) as [->|Hqp].
        -- split; [by apply pb_deact0|]. split; [done|]. by intros.
        -- rewrite Hq1 by done. destruct (pb_deact0 q Hq) as (D1 & D2 & D3). split; [done|]. split; [done|]. intros D4 y Hy. rewrite HU. by apply D3.
      * intros q Hq. rewrite Hq1 by (intros ->; done). by apply pb_own0.
      * rewrite P1. intros y Hy. rewrite HO, HU. by apply pb_pts0.
      * by rewrite HU, P1.
      * by rewrite P1.
      * right; right. done.
    + unfold lastB. by rewrite P1, R5, HU.
Qed.
(** A subscription made by the actor itself. *)
Lemma points_find Y Z s ev x : good Y Z s ev -> live s x -> owner s x = None -> find_last (same s x) (d_points s) = Some x.
Proof.
  intros G Hl Ho. assert (Hx : x ∈ d_points s) by (unfold live in Hl; by rewrite Ho in Hl).
  destruct (find_last (same s x) (d_points s)) as [y|] eqn:E.
  - assert (x <= y) by (eapply find_last_max; [apply (g_sorted _ _ _ _ _ _ G)|exact E|done|by apply same_spec]).
    apply find_last_some in E as [E1 E2%same_spec]. destruct (decide (x = y)) as [->|]; [done|]. exfalso.
    apply (g_pkey _ _ _ _ _ _ G x y); [done|done|done|lia|done].
  - apply (find_last_none _ _ E) in Hx. assert (same s x x = true) by by apply same_spec. congruence.
Qed.
Lemma gone_points_eq s x : owner s x = None -> w_points (if isext s x then s else w_map s (erase x (d_map s)))
   (erase x (d_points (if isext s x then s else w_map s (erase x (d_map s))))) = gone s x.
Proof. intros H. unfold TeardownProofs.gone. by rewrite H. Qed.
Lemma handle_anon_B Z s ev x : good [x] Z s ev -> phB [] [x] s ev -> lastB s -> owner s x = None ->
  wp true (handle_unsubscription n ext lifetime x false) (fun b s' ev' => b = true /\ good [] (x :: Z) s' ev' /\ phB [] [] s' ev' /\ lastB s' /\ onward s ev s' ev' /\ EGone x ∈ ev') s ev.
Proof.
  intros G B L Ho. assert (Hl : live s x /\ un s x = true) by (apply (g_msg _ _ _ _ _ _ G); left). destruct Hl as [Hl Hu].
  assert (Hx : x ∈ d_points s) by (unfold live in Hl; by rewrite Ho in Hl).
  assert (Hx3 : 3 <= x). { destruct (decide (x < 3)) as [H|H]; [|lia]. apply (g_first _ _ _ _ _ _ G) in H. congruence. }
  assert (Hpn : d_points s <> []) by (intros E; rewrite E in Hx; by apply elem_of_nil in Hx).
  assert (Hlf : d_life s = true). { destruct (d_life s) eqn:E; [done|]. by apply (pb_life _ _ _ _ B) in E as [_ E]. }
  unfold handle_unsubscription. apply wp_bnd, wp_get. rewrite (bool_decide_eq_true_2 (lifetime = lifetime)) by done. unfold anonymous. rewrite Ho. cbn [andb].
  rewrite (points_find _ _ _ _ _ G Hl Ho). rewrite (pb_act _ _ _ _ B lifetime) by apply not_elem_of_nil. rewrite bool_decide_eq_true_2 by apply (pb_one _ _ _ _ B).
  apply wp_bnd, wp_skip. apply wp_bnd. apply (forget_map_ok _ _ _ _ _ _ G Hl). apply wp_bnd, wp_modify. rewrite gone_points_eq by done.
  apply (good_gone _ _ [] Z) in G. destruct (gone_rest s x) as (R1 & R2 & R3 & R4 & R5 & R6 & R7 & R8). destruct (gone_anon s x Ho) as [P1 P2].
  set (s1 := gone s x) in *. set (ev1 := ev ++ [EGone x]) in *.
  assert (HU : forall y, un s1 y = un s y) by (intros y; unfold s1; by rewrite gone_info).
  assert (HO : forall y, owner s1 y = owner s y) by (intros y; unfold s1; by rewrite gone_info).
  assert (W1 : onward s ev s1 ev1) by (eapply onward_snoc; [apply onward_refl|apply gone_infos]).
  assert (Hgx : EGone x ∈ ev1) by (apply elem_snoc; auto).
  assert (HU0 : un s 0 <> true) by (intros H; by apply Hpn, (pb_un0 _ _ _ _ B)).
  assert (B1 : phB [] [] s1 ev1).
  { destruct B. split; rewrite ?R1, ?R2, ?R3, ?R4, ?R5, ?R6, ?R7, ?R8, ?P2; try assumption.
    - intros q Hq. destruct (pb_deact0 q Hq) as (D1 & D2 & D3). split; [done|]. split; [done|]. intros D4 y Hy. rewrite HU. by apply D3.
    - rewrite P1. intros y [Hy _]%elem_erase. rewrite HO, HU. by apply pb_pts0.
    - rewrite HU. intros H. by apply HU0 in H.
    - congruence.
    - rewrite <- P2. apply (ord_tail _ x Hx3). rewrite !HU, P2. unfold s1. rewrite gone_pending. done.
    - destruct pb_ev0 as (V1 & V2 & V3). unfold ev1. split; [apply elem_snoc; auto|]. split.
      + rewrite elem_snoc. by intros [?|?].
      + intros q. rewrite elem_snoc, V3. split; [by intros [?|?]|auto]. }
  apply wp_bnd, wp_get. destruct (decide (d_points s1 = [])) as [He|He].
  - rewrite bool_decide_eq_true_2 by done. cbn [when]. wp_use (apply (life_down [] [] (x :: Z) s1 ev1 G B1)).
    { rewrite (pb_act _ _ _ _ B1) by apply not_elem_of_nil. apply bool_decide_eq_true, (pb_one _ _ _ _ B1). } { by rewrite R3. } { done. }
    intros [] s2 ev2 (G2 & B2 & U2 & R & W2). wps. split; [done|]. split; [done|]. split; [done|]. split; [by intros ? ?|]. split; [by eapply onward_trans|by eapply onward_ev].
  - rewrite bool_decide_eq_false_2 by done. cbn [when]. wps. split; [done|]. split; [done|]. split; [done|]. split; [by intros ?|done].
Qed.

(** The same before the shutdown. *)
Lemma nodup_erase x (l : list nat) : NoDup l -> NoDup (erase x l).
Proof. apply NoDup_filter. Qed.
Lemma phA_gone s ev x p : phA s ev -> owner s x = Some p -> p = starter -> (exists t, i_type (info s x) = HUser t) -> phA (gone s x) (ev ++ [EGone x]).
Proof.
  intros A Hp -> [t Ht]. destruct (gone_rest s x) as (R1 & R2 & R3 & R4 & R5 & R6 & R7 & R8). destruct (gone_plug s x starter Hp) as [P1 P2].
  assert (Hn : 4 <= n) by apply su. assert (Hsl : starter <> lifetime) by (unfold TeardownModel.starter, lifetime; lia).
  destruct A. split; rewrite ?R1, ?R2, ?R3, ?R4, ?R5, ?R6, ?R7, ?R8, ?P1, ?P2; try assumption.
  - intros p Hpn. rewrite updn_ne; [by apply pa_own0|]. unfold TeardownModel.starter. lia.
  - intros p. unfold updn. destruct (decide (p = starter)); [apply nodup_erase|]; apply pa_nd0.
  - by rewrite updn_ne.
  - intros p y. unfold updn. destruct (decide (p = starter)) as [->|]; [intros [Hy _]%elem_erase; by eapply pa_live0|apply pa_live0].
  - intros y. rewrite gone_info. apply pa_un0.
  - destruct pa_start0 as (y & k & Hy & Hk). exists y, k. rewrite updn_eq, gone_info. split; [|done]. apply elem_erase. split; [done|]. intros ->. congruence.
  - destruct pa_ev0 as (V1 & V2 & V3). split; [|split]; [| |intros q]; rewrite elem_snoc; intros [?|?]; try done; by apply (V3 q).
Qed.
Lemma forget_A Z s ev x : good [x] Z s ev -> phA s ev -> owner s x = Some starter -> (exists t, i_type (info s x) = HUser t) ->
  wp true (forget n ext starter x) (fun b s' ev' => b = true /\ good [] (x :: Z) s' ev' /\ phA s' ev' /\ onward s ev s' ev' /\ EGone x ∈ ev') s ev.
Proof.
  intros G A Hp Ht. assert (Hl : live s x) by (apply (g_msg _ _ _ _ _ _ G); left).
  assert (Hx : x ∈ d_own s starter) by (unfold live in Hl; by rewrite Hp in Hl). assert (Hn : 4 <= n) by apply su.
  unfold forget. apply wp_bnd, wp_get. rewrite (forget_find _ _ _ _ _ _ G Hx).
  apply wp_bnd, wp_check; [intros _; unfold anonymous; by rewrite Hp|intros _].
  rewrite (pa_act _ _ _ A). rewrite bool_decide_eq_true_2 by (unfold TeardownModel.starter; lia). apply wp_bnd, wp_skip.
  apply wp_bnd. apply (forget_map_ok _ _ _ _ _ _ G Hl). apply wp_bnd, wp_modify. rewrite gone_own_eq by done.
  apply (good_gone _ _ [] Z) in G. pose proof (phA_gone _ _ _ _ A Hp eq_refl Ht) as A1. apply wp_bnd, wp_get.
  rewrite bool_decide_eq_false_2. 2: { destruct (pa_start _ _ _ A1) as (y & k & Hy & _). intros E. rewrite E in Hy. by apply elem_of_nil in Hy. }
  cbn [when]. wps. split; [done|]. split; [done|]. split; [done|]. split; [eapply onward_snoc; [apply onward_refl|apply gone_infos]|]. apply elem_snoc; auto.
Qed.
Lemma handle_anon_A Z s ev x : good [x] Z s ev -> phA s ev -> owner s x = None ->
  wp true (handle_unsubscription n ext lifetime x false) (fun b s' ev' => b = true /\ good [] (x :: Z) s' ev' /\ phA s' ev' /\ onward s ev s' ev' /\ EGone x ∈ ev') s ev.
Proof.
  intros G A Ho. assert (Hl : live s x) by (apply (g_msg _ _ _ _ _ _ G); left). assert (Hn : 4 <= n) by apply su.
  assert (Hx0 : x <> 0). { intros ->. assert (owner s 0 = Some lifetime) by (apply (g_first _ _ _ _ _ _ G); lia). congruence. }
  unfold handle_unsubscription. apply wp_bnd, wp_get. rewrite (bool_decide_eq_true_2 (lifetime = lifetime)) by done. unfold anonymous. rewrite Ho. cbn [andb].
  rewrite (points_find _ _ _ _ _ G Hl Ho). rewrite (pa_act _ _ _ A). rewrite bool_decide_eq_true_2 by (unfold lifetime; lia).
  apply wp_bnd, wp_skip. apply wp_bnd. apply (forget_map_ok _ _ _ _ _ _ G Hl). apply wp_bnd, wp_modify. rewrite gone_points_eq by done.
  pose proof (g_own _ _ _ _ _ _ G) as Hown.
  apply (good_gone _ _ [] Z) in G. destruct (gone_rest s x) as (R1 & R2 & R3 & R4 & R5 & R6 & R7 & R8). destruct (gone_anon s x Ho) as [P1 P2].
  assert (A1 : phA (gone s x) (ev ++ [EGone x])).
  { destruct A. split; rewrite ?R1, ?R2, ?R3, ?R4, ?R5, ?R6, ?R7, ?R8, ?P1, ?P2; try assumption.
    - apply elem_erase. done.
    - intros p y Hy. apply elem_erase. split; [by eapply pa_live0|]. intros ->. apply Hown in Hy. congruence.
    - intros y. rewrite gone_info. apply pa_un0.
    - destruct pa_start0 as (y & k & Hy & Hk). exists y, k. by rewrite gone_info.
    - destruct pa_ev0 as (V1 & V2 & V3). split; [|split]; [| |intros q]; rewrite elem_snoc; intros [?|?]; try done; by apply (V3 q). }
  apply wp_bnd, wp_get. rewrite bool_decide_eq_false_2. 2: { pose proof (pa_pts0 _ _ _ A1) as H. intros E. rewrite E in H. by apply elem_of_nil in H. }
  cbn [when]. wps. split; [done|]. split; [done|]. split; [done|]. split; [eapply onward_snoc; [apply onward_refl|apply gone_infos]|]. apply elem_snoc; auto.
Qed.

(** ** Polling the plugins. *)
Definition plug_of (s : dstate) (x : nat) : nat := default lifetime (owner s x).
Lemma handle_other Y Z s ev x p (Q : bool -> dstate -> list dev -> Prop) : good Y Z s ev -> live s x -> p <> plug_of s x -> Q false s ev ->
  wp true (handle_unsubscription n ext p x false) Q s ev.
Proof.
  intros G Hl Hp HQ. unfold handle_unsubscription. apply wp_bnd, wp_get. replace (bool_decide (p = lifetime) && anonymous s x) with false.
  - unfold base_unsubscription, forget. apply wp_bnd, wp_get. rewrite (forget_none _ _ _ _ _ _ G Hl); [by wps|]. intros E. apply Hp. unfold plug_of. by rewrite E.
  - symmetry. apply andb_false_iff. unfold plug_of in Hp. unfold anonymous. destruct (owner s x); [by right|]. left. by apply bool_decide_eq_false.
Qed.
Lemma poll_at Y Z s ev x l (Q : dstate -> list dev -> Prop) : good Y Z s ev -> live s x -> plug_of s x ∈ l ->
  wp true (handle_unsubscription n ext (plug_of s x) x false) (fun b s' ev' => b = true /\ Q s' ev') s ev ->
  wp true (poll n ext l x false) (fun _ => Q) s ev.
Proof.
  intros G Hl Ho H. induction l as [|p l IH]; [by apply elem_of_nil in Ho|]. cbn [poll]. destruct (decide (p = plug_of s x)) as [->|Hne].
  - wp_use (exact H). intros b s1 ev1 [-> HQ]. by wps.
  - apply wp_bnd. apply (handle_other _ _ _ _ _ _ _ G Hl Hne). apply elem_of_cons in Ho as [?|Ho]; [done|]. by apply IH.
Qed.
Lemma handle_plug x p e Q s ev : owner s x = Some p -> wp true (base_unsubscription n ext p x e) Q s ev -> wp true (handle_unsubscription n ext p x e) Q s ev.
Proof. intros Hp H. unfold handle_unsubscription. apply wp_bnd, wp_get. unfold anonymous. rewrite Hp, andb_false_r. done. Qed.
Lemma rev_seq : rev (seq 0 n) = starter :: rev (seq 0 (n - 1)).
Proof. assert (Hn : 4 <= n) by apply su. replace n with (S (n - 1)) at 1 by lia. rewrite seq_S, rev_app_distr. done. Qed.
Lemma elem_plugins p : p ∈ rev (seq 0 n) <-> p < n.
Proof. rewrite elem_rev, elem_of_seq. lia. Qed.

Definition inv (s : dstate) (ev : list dev) : Prop := good [] [] s ev /\ (phA s ev \/ phB [] [] s ev /\ lastB s \/ phC s ev).
Definition mid (x : nat) (s : dstate) (ev : list dev) : Prop := good [x] [] s ev /\ (phA s ev \/ phB [] [x] s ev /\ lastB s).
Lemma first_local Y Z s ev x : good Y Z s ev -> x < 3 -> isext s x = false.
Proof.
  intros G Hx. apply (g_first _ _ _ _ _ _ G) in Hx. apply (g_plug _ _ _ _ _ _ G) in Hx as [[H _]|[H _]]; [|done]. assert (Hn : 4 <= n) by apply su. unfold TeardownModel.starter, lifetime in H. lia.
Qed.
Lemma mid_zero x s ev : mid x s ev -> 0 ∈ d_map s.
Proof.
  intros [G H]. apply (g_map _ _ _ _ _ _ G). split; [|apply (first_local _ _ _ _ _ G); lia]. apply (own_live _ _ _ _ _ _ lifetime _ G).
  destruct H as [A|[B _]]; [rewrite (pa_own1 _ _ _ A); left|]. destruct (pb_ord _ _ _ _ B) as [(_ & _ & _ & ->)|[(-> & _)|[(-> & _)|(-> & _)]]]; left.
Qed.
Lemma mid_one x s ev : mid x s ev -> 3 <= x -> 1 ∈ d_map s.
Proof.
  intros [G H] Hx. apply (g_map _ _ _ _ _ _ G). split; [|apply (first_local _ _ _ _ _ G); lia]. apply (own_live _ _ _ _ _ _ lifetime _ G).
  destruct H as [A|[B _]]; [rewrite (pa_own1 _ _ _ A); right; left|]. destruct (pb_ord _ _ _ _ B) as [(_ & _ & _ & ->)|[(-> & _)|[(_ & H)|(_ & H)]]]; [right; left|right; left|cbn in H; injection H as H; lia..].
Qed.
Lemma mid_plug x s ev : mid x s ev -> plug_of s x < n.
Proof.
  intros [G H]. assert (Hl : live s x) by (apply (g_msg _ _ _ _ _ _ G); left). assert (Hn : 4 <= n) by apply su. unfold plug_of. destruct (owner s x) as [p|] eqn:E; cbn; [|unfold lifetime; lia].
  unfold live in Hl. rewrite E in Hl. destruct (decide (p < n)) as [|Hp]; [done|]. exfalso. destruct H as [A|[B _]].
  - rewrite (pa_own _ _ _ A) in Hl by lia. by apply elem_of_nil in Hl.
  - rewrite (pb_own _ _ _ _ B) in Hl; [by apply elem_of_nil in Hl|]. intros Hd. apply (pb_deact _ _ _ _ B) in Hd as [? _]. done.
Qed.
Lemma fq_phA s ev q : phA s ev -> phA (w_fq s q) ev.
Proof. intros []. split; assumption. Qed.
Lemma fq_phB X Y s ev q : phB X Y s ev -> phB X Y (w_fq s q) ev.
Proof. intros []. split; assumption. Qed.
Lemma user_owner Y Z s ev x : good Y Z s ev -> x < len s -> (exists t, i_type (info s x) = HUser t) -> owner s x = None \/ owner s x = Some starter.
Proof.
  intros G Hx [t Ht]. destruct (owner s x) as [p|] eqn:E; [|auto]. right. apply (g_plug _ _ _ _ _ _ G) in E as [[-> _]|(_ & k & E)]; [done|congruence].
Qed.
Lemma good_after s ev x : good [] [x] s ev -> isext s x = false -> good [] [] s ev.
Proof. apply good_local. Qed.
Lemma deliver_ok m x s ev : mid x s ev -> un_of m = Some x -> m = (if isext s x then MUnsubExt x else MUnsub x) ->
  wp true (deliver n ext m) (fun _ => inv) s ev.
Proof.
  intros M Hm Hk. assert (M' := M). destruct M' as [G Ph]. assert (Hl : live s x /\ un s x = true) by (apply (g_msg _ _ _ _ _ _ G); left). destruct Hl as [Hl Hu].
  pose proof (live_lt _ _ _ _ _ _ _ G Hl) as Hx. unfold deliver. apply wp_bnd, wp_get. destruct (isext s x) eqn:He; subst m.
  - assert (Hx3 : 3 <= x). { destruct (decide (x < 3)) as [H|H]; [|lia]. apply (first_local _ _ _ _ _ G) in H. congruence. }
    rewrite bool_decide_eq_true_2 by by eapply mid_one. cbn [when]. rewrite rev_seq. cbn [poll].
    assert (Hp : owner s x = Some starter).
    { destruct (owner s x) as [p|] eqn:E; [|apply (g_anon _ _ _ _ _ _ G) in E as [E _]; [congruence|done]].
      apply (g_plug _ _ _ _ _ _ G) in E as [[-> _]|[E _]]; [done|congruence]. }
    assert (Hsl : starter <> lifetime). { assert (Hn : 4 <= n) by apply su. unfold TeardownModel.starter, lifetime. lia. }
    assert (Hact : d_act s starter = true).
    { destruct Ph as [A|[B _]].
      - rewrite (pa_act _ _ _ A). apply bool_decide_eq_true. assert (Hn : 4 <= n) by apply su. unfold TeardownModel.starter. lia.
      - rewrite (pb_act _ _ _ _ B) by apply not_elem_of_nil. apply bool_decide_eq_true. destruct (decide (starter ∈ d_deact s)); [done|].
        unfold live in Hl. rewrite Hp, (pb_own _ _ _ _ B) in Hl by done. by apply elem_of_nil in Hl. }
    eapply (wp_call _ _ _ (fun b s' ev' => b = true /\ inv s' ev')); [|intros b s1 ev1 [-> HQ]; by wps].
    apply handle_plug; [done|]. unfold base_unsubscription. apply wp_bnd, wp_get.
    eapply (wp_call _ _ _ (fun b s' ev' => b = true /\ good [] [x] s' ev' /\ (phA s' ev' \/ phB [] [] s' ev' /\ lastB s') /\ onward s ev s' ev' /\ EGone x ∈ ev')).
    + destruct Ph as [A|[B L]].
      * eapply wp_mono; [apply (forget_A _ _ _ _ G A Hp), (pa_un _ _ _ A _ Hu)|]. cbv beta. intros b s1 ev1 (H1 & H2 & H3 & H4 & H5). auto 10.
      * eapply wp_mono; [apply (forget_B _ _ _ _ _ G B L Hp Hsl)|]. cbv beta. intros b s1 ev1 (H1 & H2 & H3 & H4 & H5 & H6). auto 10.
    + cbv beta. intros b s1 ev1 (-> & G1 & Ph1 & W1 & E1). apply wp_bnd, wp_check; [done|]. intros _. rewrite Hact. wps. split; [done|].
      apply (g_eg _ _ _ _ _ _ G1) in E1 as [Hx1 Hl1]. split.
      * apply good_commit; [done|apply not_elem_of_nil| |done|done]. unfold TeardownModel.isext. by rewrite (onward_addr _ _ _ _ W1).
      * destruct Ph1 as [A1|[B1 L1]]; [left; by apply fq_phA|right; left]. split; [by apply fq_phB|done].
  - rewrite bool_decide_eq_true_2 by by eapply mid_zero. cbn [when].
    apply (poll_at _ _ _ _ _ _ _ G Hl). { apply elem_plugins. by eapply mid_plug. }
    eapply (wp_mono _ _ (fun b s' ev' => b = true /\ good [] [x] s' ev' /\ (phA s' ev' \/ phB [] [] s' ev' /\ lastB s' \/ phC s' ev') /\ onward s ev s' ev')).
    2: { cbv beta. intros b s1 ev1 (-> & G1 & Ph1 & W1). split; [done|]. split; [|done]. apply (good_after _ _ x); [done|]. unfold TeardownModel.isext. by rewrite (onward_addr _ _ _ _ W1). }
    unfold plug_of. destruct Ph as [A|[B L]].
    + destruct (user_owner _ _ _ _ _ G Hx (pa_un _ _ _ A _ Hu)) as [Ho|Ho]; rewrite Ho; cbn [default].
      * eapply wp_mono; [apply (handle_anon_A _ _ _ _ G A Ho)|]. cbv beta. intros b s1 ev1 (H1 & H2 & H3 & H4 & H5). auto 10.
      * apply handle_plug; [done|]. eapply wp_mono; [apply (forget_A _ _ _ _ G A Ho), (pa_un _ _ _ A _ Hu)|]. cbv beta. intros b s1 ev1 (H1 & H2 & H3 & H4 & H5). auto 10.
    + destruct (owner s x) as [p|] eqn:Ho; cbn [default].
      * apply handle_plug; [done|]. destruct (decide (p = lifetime)) as [->|Hpl].
        -- eapply wp_mono; [apply (forget_life _ _ _ _ G B L Ho)|]. cbv beta. intros b s1 ev1 (H1 & H2 & [[H3 H3']|H3] & H4 & H5); auto 10.
        -- eapply wp_mono; [apply (forget_B _ _ _ _ _ G B L Ho Hpl)|]. cbv beta. intros b s1 ev1 (H1 & H2 & H3 & H4 & H5 & H6). auto 10.
      * eapply wp_mono; [apply (handle_anon_B _ _ _ _ G B L Ho)|]. cbv beta. intros b s1 ev1 (H1 & H2 & H3 & H4 & H5 & H6). auto 10.
Qed.
End steps.
