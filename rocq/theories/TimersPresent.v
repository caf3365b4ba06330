(** C13: the times at which timers start and fire, and the wall clock. *)
From stdpp Require Import base list gmap.
From Verif Require Import Base TimersModel TimersSpec.

Definition stamped (t : Z) (x : tevent) : Prop := match x with Started _ t' _ | Fired _ t' => t' = t | Cancelled _ => True end.
Definition steady (s : tstate) (r : res (tstate * list tevent)) : Prop :=
  forall s' e, r = Ok (s', e) -> t_now s' = t_now s /\ t_clock s' = t_clock s /\ Forall (stamped (t_now s)) e.
Lemma start_steady s id iv : steady s (do_start s id iv).
Proof. intros s' e H. injection H as <- <-. split; [done|]. split; [done|]. by apply Forall_singleton. Qed.
Lemma cancel_steady s id : steady s (do_cancel s id).
Proof.
  intros s' e H. unfold do_cancel in H. destruct (has_node _ _); [|done]. destruct (bool_decide _); injection H as <- <-; (split; [done|]; split; [done|]); [by apply Forall_singleton|constructor].
Qed.
Lemma kont_steady s k : steady s (run_kont s k).
Proof. destruct k; [|apply start_steady|apply cancel_steady]. intros s' e H. injection H as <- <-. split; [done|]. split; [done|constructor]. Qed.
Lemma update_steady s pre suf k : steady s (continue_update s pre suf k).
Proof.
  unfold continue_update. destruct (upd_loop _ _ _ _) as [nodes [id|]].
  - intros s' e H. injection H as <- <-. split; [done|]. split; [done|]. by apply Forall_singleton.
  - intros s' e H. by apply kont_steady in H.
Qed.
Lemma step_time s o s' e : (t_now s <= t_clock s)%Z -> tstep s o = Ok (s', e) ->
  (t_now s <= t_now s')%Z /\ (t_now s' <= t_clock s')%Z /\ (t_clock s <= t_clock s')%Z /\ Forall (stamped (t_now s')) e.
Proof.
  intros Hn H. assert (Hs : forall s0 r, steady s0 r -> r = Ok (s', e) -> (t_now s0 = t_now s \/ t_now s0 = t_clock s) -> t_clock s0 = t_clock s ->
    (t_now s <= t_now s')%Z /\ (t_now s' <= t_clock s')%Z /\ (t_clock s <= t_clock s')%Z /\ Forall (stamped (t_now s')) e).
  { intros s0 r Hr -> Ho Hc. destruct (Hr s' e eq_refl) as (A & B & C). rewrite A, B. split; [lia|]. split; [lia|]. split; [lia|done]. }
  assert (Hi : Ok (s, []) = Ok (s', e) -> (t_now s <= t_now s')%Z /\ (t_now s' <= t_clock s')%Z /\ (t_clock s <= t_clock s')%Z /\ Forall (stamped (t_now s')) e).
  { intros Hx. injection Hx as <- <-. split; [lia|]. split; [lia|]. split; [lia|constructor]. }
  destruct o as [dt| |iv|id| |b]; cbn [tstep] in H.
  - injection H as <- <-. cbn. split; [lia|]. split; [lia|]. split; [lia|constructor].
  - destruct (t_stack s); [|by apply Hi]. unfold update_time in H. eapply Hs; [apply update_steady|exact H|by right|done].
  - destruct (t_icpt s); [unfold update_time in H; eapply Hs; [apply update_steady|exact H|by right|done]|eapply Hs; [apply start_steady|exact H|by left|done]].
  - destruct (bool_decide _); [|done]. destruct (t_icpt s); [unfold update_time in H; eapply Hs; [apply update_steady|exact H|by right|done]|eapply Hs; [apply cancel_steady|exact H|by left|done]].
  - destruct (t_stack s) as [|[id k|id] st]; [by apply Hi|..].
    + destruct (bool_decide _); [|done]. destruct (split_node _ _) as [[pre suf]|]; [|done]. eapply Hs; [apply update_steady|exact H|by left|done].
    + destruct (bool_decide _); [|done]. destruct (has_node _ _); [|done]. injection H as <- <-. cbn. split; [lia|]. split; [lia|]. split; [lia|constructor].
  - destruct (t_stack s); [|by apply Hi]. injection H as <- <-. cbn. split; [lia|]. split; [lia|]. split; [lia|constructor].
Qed.
Lemma run_time ops : forall s s' e, (t_now s <= t_clock s)%Z -> run tstep s ops = Ok (s', e) ->
  (t_now s <= t_now s')%Z /\ (t_now s' <= t_clock s')%Z /\ forall x t, x ∈ e -> (exists id iv, x = Started id t iv) \/ (exists id, x = Fired id t) -> (t_now s <= t <= t_clock s')%Z.
Proof.
  induction ops as [|o ops IH]; intros s s' e Hn H; cbn [run] in H.
  - injection H as <- <-. split; [lia|]. split; [lia|]. intros x t Hx. by apply elem_of_nil in Hx.
  - destruct (tstep s o) as [[s1 e1]| |] eqn:Hs; [|done..]. cbn in H. destruct (run tstep s1 ops) as [[s2 e2]| |] eqn:Hr; [|done..]. cbn in H. injection H as <- <-.
    destruct (step_time _ _ _ _ Hn Hs) as (A & B & C & D). destruct (IH s1 s2 e2 B Hr) as (E & F & G). split; [lia|]. split; [lia|].
    assert (Hc : (t_now s1 <= t_clock s2)%Z) by lia.
    intros x t [Hx|Hx]%elem_of_app Hk; [|specialize (G x t Hx Hk); lia]. rewrite Forall_forall in D. apply D in Hx. destruct Hk as [(id & iv & ->)|(id & ->)]; cbn in Hx; lia.
Qed.
Lemma timers_clock ops s ev x t : run tstep tinit ops = Ok (s, ev) -> x ∈ ev -> (exists id iv, x = Started id t iv) \/ (exists id, x = Fired id t) -> (t <= t_clock s)%Z.
Proof. intros H Hx Hk. destruct (run_time ops tinit s ev) as (_ & _ & A); [done|done|]. by destruct (A x t Hx Hk). Qed.
Lemma timers_present ops1 s1 ev1 iv ops2 s2 ev2 id t iv' : run tstep tinit ops1 = Ok (s1, ev1) -> t_icpt s1 = true -> run tstep s1 (OpStart iv :: ops2) = Ok (s2, ev2) -> Started id t iv' ∈ ev2 -> (t_clock s1 <= t)%Z.
Proof.
  intros H1 Hi H2 Hx. destruct (run_time ops1 tinit s1 ev1) as (_ & Hn & _); [done|done|]. cbn [run] in H2. destruct (tstep s1 (OpStart iv)) as [[s e]| |] eqn:Hs; [|done..]. cbn in H2.
  destruct (run tstep s ops2) as [[s' e']| |] eqn:Hr; [|done..]. cbn in H2. injection H2 as <- <-.
  destruct (step_time _ _ _ _ Hn Hs) as (_ & B & _ & D). assert (E : t_now s = t_clock s1).
  { cbn [tstep] in Hs. rewrite Hi in Hs. unfold update_time in Hs. by apply update_steady in Hs as (-> & _). }
  apply elem_of_app in Hx as [Hx|Hx].
  - rewrite Forall_forall in D. apply D in Hx. cbn in Hx. lia.
  - destruct (run_time ops2 s s' e' B Hr) as (_ & _ & G). specialize (G _ t Hx (or_introl (ex_intro _ id (ex_intro _ iv' eq_refl)))). lia.
Qed.
