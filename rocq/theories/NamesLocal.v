(** What one step of an actor does to the names it registers, and to its requests. *)
From stdpp Require Import base list gmap.
From Verif Require Import Base Prog ActorModel ActorSpec ActorMoves ActorReach ActorSteps NetViews.
Open Scope N_scope.
Local Open Scope prog_scope.

(** ** The moves of a step *)
Inductive chain (s0 : astore) : list aev -> astore -> Prop :=
| chain_nil : chain s0 [] s0
| chain_move e s e' s' : chain s0 e s -> move False s e' s' -> chain s0 (e ++ e') s'.
Section chain.
Context (cfg : plug -> list uact) (ra : N) (unl : bool).
Lemma chain_inv (I : astore -> list aev -> Prop) s0 : I s0 [] -> (forall s e e' s', I s e -> move False s e' s' -> I s' (e ++ e')) -> forall e s, chain s0 e s -> I s e.
Proof. intros H0 H e s Hc. induction Hc; eauto. Qed.

Definition onward (s0 : astore) (tr : list aev) (s : astore) (ev : list aev) : Prop := reach False s ev /\ exists e, ev = tr ++ e /\ chain s0 e s.
Lemma onward_move s0 tr s ev e s' : onward s0 tr s ev -> move False s e s' -> onward s0 tr s' (ev ++ e).
Proof.
  intros [HR (e0 & -> & Hc)] Hm. split; [by eapply reach_move|]. exists (e0 ++ e). rewrite <- (assoc_L (++)). split; [done|]. by eapply chain_move.
Qed.
Lemma onward_wp {A} (m : prog astore aev A) s tr s' e x : reach False s tr -> (onward s tr s tr -> wp false m (fun _ => onward s tr) s tr) -> m s = Ok (s', e, x) -> reach False s' (tr ++ e) /\ chain s e s'.
Proof.
  intros HR HW Hm. assert (HO : onward s tr s tr) by (split; [done|]; exists []; rewrite app_nil_r; split; [done|constructor]).
  specialize (HW HO). unfold wp in HW. rewrite Hm in HW. destruct HW as [H1 (e' & E & Hc)]. split; [done|]. by apply app_inv_head in E as ->.
Qed.

Lemma step_chain o s tr s' e : reach False s tr -> astep cfg ra unl s o = Ok (s', e) -> reach False s' (tr ++ e) /\ chain s e s'.
Proof.
  intros HR Hs. unfold astep, to_step in Hs. destruct (aprog cfg ra unl o s) as [[[s1 e1] []]| |] eqn:E; try done. injection Hs as <- <-.
  eapply onward_wp; [exact HR| |exact E]. intros HO. apply (aprog_kept cfg ra unl False); try done; [apply onward_move|by intros ? ? [? _]].
Qed.
Lemma resp_chain id r q s tr s' e : reach False s tr -> x_st s <> AShutDown -> x_pend s !! id = Some q -> astep cfg ra unl s (OResp id r) = Ok (s', e) ->
  chain (w_pend s (delete id (x_pend s))) e s'.
Proof.
  intros HR Hst Hq Hs. unfold astep, to_step in Hs. destruct (aprog cfg ra unl (OResp id r) s) as [[[s1 e1] []]| |] eqn:E; try done. injection Hs as <- <-.
  set (s2 := w_pend _ _). assert (HR2 : reach False s2 tr) by (by eapply reach_nil; [|apply MPendDel]).
  assert (E2 : respond cfg ra unl q r s2 = Ok (s1, e1, tt)).
  { unfold aprog, bnd, get in E. cbn in E. rewrite bool_decide_eq_false_2 in E by done. cbn in E. unfold bnd, get in E. cbn in E. rewrite Hq in E. cbn in E.
    unfold modify in E. unfold s2. destruct (respond _ _ _ _ _ _) as [[[? ?] []]| |]; congruence. }
  eapply onward_wp; [exact HR2| |exact E2]. intros HO. apply (respond_reach cfg ra unl False); try done; [apply onward_move|by intros ? ? [? _]|].
  intros n ->. destruct (reach_lked False s tr HR) as (HL & _). exact (HL _ _ Hq).
Qed.
End chain.

(** ** What the moves keep *)
Lemma move_lked s e s' : move False s e s' -> (x_lked s = true -> x_lked s' = true) /\ (x_lked s = true -> forall m, x_rm s !! m = None -> x_rm s' !! m = None).
Proof.
  intros Hm. destruct Hm; try (by split; [|intros _ m]); try (by destruct b; split).
  - split; [done|]. congruence.
  - split; [done|]. intros HL m Hm. cbn. destruct (decide (m = n)) as [->|Hn]; [rewrite Hm in H; by destruct H|by rewrite lookup_insert_ne].
  - split; [done|]. intros HL m Hm. cbn. by apply lookup_delete_None; right.
Qed.
Lemma move_pend s e s' : move False s e s' -> x_next s <= x_next s' /\ forall id, id < x_next s -> x_pend s !! id = None -> x_pend s' !! id = None.
Proof.
  intros Hm. destruct Hm; try (by split); try (by destruct b; split); cbn.
  all: try (split; [lia|]; intros i Hi Hn; rewrite lookup_insert_ne by lia; done).
  all: try (split; [lia|]; intros i Hi Hn; by apply lookup_delete_None; right).
  - split; [lia|]. intros i Hi Hn. destruct (p !! i) eqn:E; [|done]. apply H0 in E. congruence.
  - split; [lia|]. intros i Hi Hn. destruct (p !! i) eqn:E; [|done]. apply H0 in E. congruence.
Qed.
Definition name_ev (x : aev) : bool := match x with EvDereg _ | EvRegResp _ _ => true | _ => false end.
Definition rm_step (s : astore) (e : list aev) (s' : astore) (m : N) : Prop :=
  (x_rm s' !! m = Some ROperational -> x_rm s !! m = Some ROperational \/ EvRegResp m true ∈ e) /\
  (x_rm s !! m = Some ROperational -> x_rm s' !! m = Some ROperational \/ EvDereg m ∈ e \/ EvRegResp m false ∈ e) /\
  (EvDereg m ∈ e -> x_rm s !! m = Some ROperational /\ x_rm s' !! m = None /\ EvRegResp m true ∉ e) /\
  (EvDereg m ∈ e -> length (filter (eq (EvDereg m)) e) = 1%nat).
Lemma no_name_ev e x : Forall (fun x => name_ev x = false) e -> name_ev x = true -> x ∉ e.
Proof. rewrite Forall_forall. intros H Hx Hin. apply H in Hin. congruence. Qed.
Lemma rm_same s e s' m : x_rm s' = x_rm s -> Forall (fun x => name_ev x = false) e -> rm_step s e s' m.
Proof. intros E He. unfold rm_step. rewrite E. split_and!; try tauto; intros H; by destruct (no_name_ev e (EvDereg m) He eq_refl). Qed.
Lemma filter_once {A} `{EqDecision A} (x : A) (e : list A) : NoDup e -> x ∈ e -> length (filter (eq x) e) = 1%nat.
Proof.
  induction e as [|y e IH]; intros HN Hx; [by apply elem_of_nil in Hx|]. apply NoDup_cons in HN as [Hy HN]. rewrite filter_cons. destruct (decide (x = y)) as [->|Hn].
  - cbn. f_equal. apply length_zero_iff_nil. destruct (filter (eq y) e) as [|z l] eqn:E; [done|]. destruct Hy.
    assert (Hz : z ∈ filter (eq y) e) by (rewrite E; by left). by apply elem_of_list_filter in Hz as [<- ?].
  - apply elem_of_cons in Hx as [?|Hx]; [done|]. by apply IH.
Qed.
Lemma move_rm s e s' m : move False s e s' -> rm_step s e s' m.
Proof.
  intros Hm. destruct Hm; try (by apply rm_same; [|repeat constructor]); try (by destruct b; (apply rm_same; [|repeat constructor]));
    try (by apply rm_same; [done|repeat first [apply Forall_app_2|case_match|constructor]]).
  - unfold rm_step. cbn. split_and!; try (by intros ?%elem_of_list_singleton).
    + intros [[_ ?]|[_ ?]]%lookup_insert_Some; [done|by left].
    + intros Hs. left. rewrite lookup_insert_ne; [done|]. intros <-. congruence.
  - unfold rm_step. cbn. split_and!; try (by intros ?%elem_of_list_singleton).
    + intros [[<- _]|[_ ?]]%lookup_insert_Some; [right; by left|by left].
    + intros Hs. left. destruct (decide (m = n)) as [->|Hn]; [by rewrite lookup_insert|by rewrite lookup_insert_ne].
  - unfold rm_step. cbn. split_and!; try (intros Hx; exfalso; by repeat (apply elem_of_cons in Hx as [Hx|Hx]; [done|]); apply elem_of_nil in Hx).
    + intros [_ ?]%lookup_delete_Some. by left.
    + intros Hs. destruct (decide (m = n)) as [->|Hn]; [right; right; by left|left; by rewrite lookup_delete_ne].
  - unfold rm_step. cbn. split_and!.
    + by rewrite lookup_empty.
    + intros Hs. right. left. apply H1. eauto.
    + intros (n & [= <-] & Hn)%H1. split_and!; [done|done|]. intros (k & Hk & _)%H1. done.
    + intros Hx. by apply filter_once.
Qed.

(** The same of a whole step. *)
Lemma chain_lked s e s' : chain s e s' -> (x_lked s = true -> x_lked s' = true) /\ (x_lked s = true -> forall m, x_rm s !! m = None -> x_rm s' !! m = None).
Proof.
  apply (chain_inv (fun s' _ => (x_lked s = true -> x_lked s' = true) /\ (x_lked s = true -> forall m, x_rm s !! m = None -> x_rm s' !! m = None))); [by split|].
  intros s1 e1 e2 s2 [H1 H2] [M1 M2]%move_lked. split; auto.
Qed.
Lemma chain_pend s e s' : chain s e s' -> x_next s <= x_next s' /\ forall id, id < x_next s -> x_pend s !! id = None -> x_pend s' !! id = None.
Proof.
  apply (chain_inv (fun s' _ => x_next s <= x_next s' /\ forall id, id < x_next s -> x_pend s !! id = None -> x_pend s' !! id = None)); [split; [lia|done]|].
  intros s1 e1 e2 s2 [H1 H2] [M1 M2]%move_pend. split; [lia|]. intros id Hi Hn. apply M2; [lia|auto].
Qed.
Lemma chain_op s e s' m : chain s e s' -> x_rm s' !! m = Some ROperational -> x_rm s !! m = Some ROperational \/ EvRegResp m true ∈ e.
Proof.
  apply (chain_inv (fun s' e => x_rm s' !! m = Some ROperational -> x_rm s !! m = Some ROperational \/ EvRegResp m true ∈ e)); [by left|].
  intros s1 e1 e2 s2 H1 (M1 & _)%(fun H => move_rm _ _ _ m H) Hs. destruct (M1 Hs) as [H|H]; [|right; apply elem_of_app; by right].
  destruct (H1 H); [by left|right; apply elem_of_app; by left].
Qed.
Lemma chain_hold s e s' m : chain s e s' -> x_rm s !! m = Some ROperational -> x_rm s' !! m = Some ROperational \/ EvDereg m ∈ e \/ EvRegResp m false ∈ e.
Proof.
  intros Hc Hs. revert e s' Hc. apply (chain_inv (fun s' e => x_rm s' !! m = Some ROperational \/ EvDereg m ∈ e \/ EvRegResp m false ∈ e)); [by left|].
  intros s1 e1 e2 s2 H1 (_ & M2 & _)%(fun H => move_rm _ _ _ m H). rewrite !elem_of_app. naive_solver.
Qed.
Lemma chain_dereg s e s' m : chain s e s' -> EvRegResp m true ∉ e -> x_lked s = true -> EvDereg m ∈ e ->
  x_rm s !! m = Some ROperational /\ x_rm s' !! m = None /\ length (filter (eq (EvDereg m)) e) = 1%nat.
Proof.
  intros Hc Hn HL. enough (x_lked s' = true /\ (EvDereg m ∈ e -> x_rm s !! m = Some ROperational /\ x_rm s' !! m = None /\ length (filter (eq (EvDereg m)) e) = 1%nat)) by naive_solver.
  revert Hn. induction Hc as [|e s1 e' s2 Hc IH Hm]; intros Hn; [split; [done|by intros ?%elem_of_nil]|].
  rewrite elem_of_app in Hn. destruct IH as [HL1 IH]; [tauto|]. destruct (move_lked _ _ _ Hm) as [L1 L2]. split; [auto|].
  destruct (move_rm _ _ _ m Hm) as (M1 & _ & M3 & M4). rewrite elem_of_app, filter_app, app_length. intros [Hd|Hd].
  - destruct (IH Hd) as (E1 & E2 & E3). split_and!; [done|auto|]. destruct (filter (eq (EvDereg m)) e') as [|z l] eqn:E; [cbn; lia|].
    assert (Hz : z ∈ filter (eq (EvDereg m)) e') by (rewrite E; by left). apply elem_of_list_filter in Hz as [<- Hz]. destruct (M3 Hz) as (F1 & _). congruence.
  - destruct (M3 Hd) as (F1 & F2 & _). assert (Hs : x_rm s !! m = Some ROperational).
    { destruct (chain_op _ _ _ m Hc F1) as [?|?]; [done|]. tauto. }
    split_and!; [done|done|]. rewrite (M4 Hd). destruct (filter (eq (EvDereg m)) e) as [|z l] eqn:E; [done|].
    assert (Hz : z ∈ filter (eq (EvDereg m)) e) by (rewrite E; by left). apply elem_of_list_filter in Hz as [<- Hz]. destruct (IH Hz) as (_ & E2 & _). congruence.
Qed.
Lemma reach_asked D s ev m id : reach D s ev -> EvReg m id ∈ ev -> x_lked s = true.
Proof.
  intros HR. revert m id. revert s ev HR. apply (reach_inv D (fun s ev => forall m id, EvReg m id ∈ ev -> x_lked s = true)); [by intros ? ? ?%elem_of_nil|].
  intros s ev e s' _ H Hm m id [Hx|Hx]%elem_of_app.
  - specialize (H _ _ Hx). by destruct Hm; try done; destruct b.
  - destruct Hm; try (by repeat (apply elem_of_cons in Hx as [Hx|Hx]; [done|]); apply elem_of_nil in Hx); try done.
    all: repeat case_match; try (by repeat (apply elem_of_cons in Hx as [Hx|Hx]; [done|]); apply elem_of_nil in Hx).
    by apply H2 in Hx as (? & ? & _).
Qed.
