(** C66: the invariant. *)
From stdpp Require Import base list.
From Verif Require Import Base LoopCallModel LoopCallSpec.

Definition is_yield (i : instr) : bool := match i with IYield => true | _ => false end.
Definition yields (r : list instr) : bool := existsb is_yield r.
(** What comes after the yield. *)
Fixpoint later (r : list instr) : list instr := match r with [] => [] | IYield :: r => r | _ :: r => later r end.
(** A callback yields before it processes messages and before it gives its pointer back, if at all. *)
Fixpoint early (r : list instr) : bool := match r with [] => true | (IProcess | IGive) :: r => negb (yields r) && early r | _ :: r => early r end.

Section proofs.
Context (k : kind).
Notation lstep := (lstep k).
Definition goodb (h : bool) (r : list instr) : bool :=
  early r && match k with KThread => negb (bare h r) | KSame => tidy_end h r | _ => true end.
Definition stage (w : waiting) : Prop :=
  sound (w_call w) k = true /\ possible (w_call w) k = true /\ w_holds w = holds (w_call w) /\ (w_rest w = prog (w_call w) \/ w_rest w = later (prog (w_call w))).
Definition calm (w : waiting) : Prop := bare (w_holds w) (w_rest w) = false.
Record LI (s : lstate) : Prop := {
  li_kept : l_kept s = true -> l_freed s = false;
  li_drop : l_kept s = false -> l_down s = true /\ k <> KHeld;
  li_fwait : l_freed s = true -> Forall (fun w => w_holds w = false) (l_wait s);
  li_frun : forall w, l_freed s = true -> l_run s = Some w -> w_holds w = false;
  li_wait : Forall stage (l_wait s);
  li_down : l_down s = true -> k <> KHeld -> Forall calm (l_wait s);
  li_run : forall w, l_run s = Some w -> goodb (w_holds w) (w_rest w) = true;
  li_yield : forall w, l_run s = Some w -> yields (w_rest w) = true ->
    l_in s = false /\ sound (w_call w) k = true /\ possible (w_call w) k = true /\ w_holds w = holds (w_call w) /\ later (w_rest w) = later (prog (w_call w)) /\
    (l_down s = true -> k <> KHeld -> calm w);
  li_use : forall w, l_run s = Some w -> l_in s = false -> bare (w_holds w) (w_rest w) = true -> l_kept s = true;
  li_in : l_in s = true -> exists w, l_run s = Some w /\
    (k = KSame -> calm w) /\ (k = KTurn -> bare (w_holds w) (w_rest w) = true -> l_kept s = true) /\ (leads k = true -> w_holds w = true \/ l_kept s = true /\ k = KTurn) }.

Lemma LI_init : LI linit.
Proof. split; try done; constructor. Qed.
(** A supervisor is freed when nobody points to it. *)
Lemma LI_settle s : LI s -> LI (settle s).
Proof.
  intros [H1 H2 H3 H4 H5 H6 H7 H8 H9 H10]. unfold settle, held.
  assert (Hf : forall b, l_freed s || negb b = true -> l_freed s = true \/ b = false) by (intros b; destruct (l_freed s), b; naive_solver).
  split; cbn; try done.
  - intros Hk. rewrite Hk, H1 by done. done.
  - intros [Hx|Hx]%Hf; [auto|]. apply orb_false_iff in Hx as [Hx _]. apply orb_false_iff in Hx as [_ Hx].
    apply list.Forall_forall. intros w Hw. destruct (w_holds w) eqn:E; [|done]. rewrite <- Hx. symmetry. apply existsb_exists. exists w. split; [by apply elem_of_list_In|done].
  - intros w [Hx|Hx]%Hf Hr; [eauto|]. apply orb_false_iff in Hx as [_ Hx]. by rewrite Hr in Hx.
Qed.
Lemma alive_use s w : LI s -> l_run s = Some w -> l_in s = false -> negb (w_holds w) || bare (w_holds w) (tail (w_rest w)) = bare (w_holds w) (w_rest w) -> (exists i r, w_rest w = i :: r /\ (i = IAccess \/ i = IProcess)) -> l_freed s = false.
Proof.
  intros Hs Hr Hi _ (i & r & E & Hu). destruct (w_holds w) eqn:Eh.
  - destruct (l_freed s) eqn:Ef; [|done]. rewrite (li_frun _ Hs w Ef Hr) in Eh. done.
  - apply (li_kept _ Hs), (li_use _ Hs w Hr Hi). rewrite Eh, E. by destruct Hu as [-> | ->].
Qed.
Lemma alive_in s : LI s -> l_in s = true -> leads k = true -> l_freed s = false.
Proof.
  intros Hs Hi Hl. destruct (li_in _ Hs Hi) as (w & Hr & _ & _ & Hx). destruct (Hx Hl) as [Hh|[Hk _]]; [|by apply Hs].
  destruct (l_freed s) eqn:Ef; [|done]. by rewrite (li_frun _ Hs w Ef Hr) in Hh.
Qed.
Lemma stage_good w : stage w -> goodb (w_holds w) (w_rest w) = true /\
  (yields (w_rest w) = true -> later (w_rest w) = later (prog (w_call w))).
Proof.
  destruct w as [c h r]. intros (H1 & H2 & H3 & H4). cbn in *. subst h. unfold goodb. destruct H4 as [-> | ->]; destruct k, c; try done; (split; [vm_compute in *; done|vm_compute; done]).
Qed.
Lemma new_stage c : sound c k = true -> possible c k = true -> stage (Waiting c (holds c) (prog c)).
Proof. intros H1 H2. repeat split; try done. by left. Qed.
(** What is not started by [S] and its actors brings a pointer. *)
Lemma foreign_calm c : own c = false -> possible c k = true -> k <> KHeld -> bare (holds c) (prog c) = false.
Proof. destruct c; try done; by destruct k. Qed.
(** What waits when [S] finishes. *)
Lemma rest_calm w : stage w -> stopped (w_call w) = false -> w_call w <> AsioForward -> k <> KHeld -> calm w.
Proof.
  destruct w as [c h r]. intros (H1 & H2 & H3 & H4) Hs Ha Hk. unfold calm. cbn in *. subst h. destruct H4 as [-> | ->]; destruct c; try done; by destruct k.
Qed.

Lemma step_LI s o : LI s -> careful k s o -> exists s' e, lstep s o = Ok (s', e) /\ LI s'.
Proof.
  intros Hs [Hc Hx].
  assert (Hfine : forall s', LI s' -> exists s2 e, fine s' = Ok (s2, e) /\ LI s2) by (intros s' H; eexists _, _; split; [done|by apply LI_settle]).
  assert (Htouch : forall s', l_freed s = false -> LI s' -> exists s2 e, touch s s' = Ok (s2, e) /\ LI s2) by (intros s' Hf H; unfold touch; rewrite Hf; eexists _, _; split; [done|by apply LI_settle]).
  destruct o as [c|i| |ends| |]; cbn [LoopCallModel.lstep].
  - destruct (l_kept s) eqn:Ek; [|by apply Hfine]. destruct (l_down s && own c) eqn:Ed; [by apply Hfine|]. cbn. apply Hfine. destruct Hx as [Hx1 Hx2].
    pose proof (li_kept _ Hs Ek) as Ef. destruct Hs as [H1 H2 H3 H4 H5 H6 H7 H8 H9 H10]. split; cbn; try done; try congruence.
    + apply Forall_app. split; [done|]. constructor; [by apply new_stage|constructor].
    + intros Hd Hk. apply Forall_app. split; [auto|]. constructor; [|constructor]. rewrite Hd in Ed. cbn in Ed. by apply foreign_calm.
  - destruct (l_run s) as [?|] eqn:Er; [by apply Hfine|]. destruct (l_wait s !! i) as [w|] eqn:Ew; [|by apply Hfine]. apply Hfine.
    pose proof Hs as [H1 H2 H3 H4 H5 H6 H7 H8 H9 H10]. pose proof (elem_of_list_lookup_2 _ _ _ Ew) as Hw.
    assert (Hst : stage w) by (by apply (list.Forall_forall stage (l_wait s))). destruct (stage_good w Hst) as [G1 G2]. destruct Hst as (T1 & T2 & T3 & T4).
    assert (Hd : forall P : waiting -> Prop, Forall P (l_wait s) -> Forall P (delete i (l_wait s))) by (intros P HP; eapply Forall_delete; done).
    split; cbn; auto.
    + intros w' Hf [= <-]. specialize (H3 Hf). rewrite list.Forall_forall in H3. by apply H3.
    + by intros w' [= <-].
    + intros w' [= <-] Hy. repeat split; auto. intros Hdn Hk. specialize (H6 Hdn Hk). rewrite list.Forall_forall in H6. by apply H6.
    + intros w' [= <-] _ Hb. destruct (l_kept s) eqn:Ek; [done|]. destruct (H2 eq_refl) as [Hdn Hk]. specialize (H6 Hdn Hk). rewrite list.Forall_forall in H6. specialize (H6 _ Hw). unfold calm in H6. congruence.
    + done.
  - destruct (l_run s) as [[c h r]|] eqn:Er; [|by apply Hfine]. destruct (l_in s) eqn:Ei; [by apply Hfine|].
    pose proof Hs as [H1 H2 H3 H4 H5 H6 H7 H8 H9 H10]. pose proof (H7 _ Er) as Hg. pose proof (H8 _ Er) as Hy. pose proof (H9 _ Er Ei) as Hu. cbn [w_holds w_rest w_call] in *.
    destruct r as [|[] r].
    + apply Hfine. by split.
    + apply Htouch; [eapply alive_use; [done|done|done|cbn; by destruct h|cbn; eauto]|].
      unfold goodb in Hg. cbn in Hg. apply andb_true_iff in Hg as [Hg1 Hg2].
      split; cbn; auto.
      * intros w' Hf [= <-]. cbn. by apply (H4 (Waiting c h (IAccess :: r))).
      * intros w' [= <-]. unfold goodb. cbn. rewrite Hg1. cbn. destruct k; try done. apply negb_true_iff in Hg2. apply orb_false_iff in Hg2 as [_ ->]. done.
      * intros w' [= <-]. cbn. intros Y. destruct (Hy Y) as (Y1 & Y2 & Y3 & Y4 & Y5 & Y6). repeat split; auto. intros Hd Hk. specialize (Y6 Hd Hk). unfold calm in *. cbn in *. by apply orb_false_iff in Y6 as [_ Y6].
      * intros w' [= <-] _ Hb. cbn in Hb. apply Hu. cbn. rewrite Hb. apply orb_true_r.
      * done.
    + apply Htouch; [eapply alive_use; [done|done|done|cbn; by destruct h|cbn; eauto]|].
      unfold goodb in Hg. cbn in Hg. apply andb_true_iff in Hg as [Hg1 Hg2]. apply andb_true_iff in Hg1 as [Hg0 Hg1]. apply negb_true_iff in Hg0.
      split; cbn; auto.
      * intros w' Hf [= <-]. cbn. by apply (H4 (Waiting c h (IProcess :: r))).
      * intros w' [= <-]. unfold goodb. cbn. rewrite Hg1. cbn. destruct k; try done; [by apply andb_true_iff in Hg2 as [_ ->]|]. apply negb_true_iff in Hg2. apply orb_false_iff in Hg2 as [_ ->]. done.
      * intros w' [= <-]. cbn. intros Y. unfold yields in Hg0. congruence.
      * done.
      * intros _. exists (Waiting c h r). split; [done|]. unfold calm. cbn. split; [|split].
        -- intros ->. apply andb_true_iff in Hg2 as [Hg2 _]. by apply negb_true_iff in Hg2.
        -- intros _ Hb. apply Hu. cbn. rewrite Hb. apply orb_true_r.
        -- intros Hl. destruct h; [by left|right]. destruct k; try done. split; [|done]. by apply Hu.
    + apply Hfine. unfold goodb in Hg. cbn in Hg. apply andb_true_iff in Hg as [Hg1 Hg2]. split; cbn; auto.
      * by intros w' Hf [= <-].
      * intros w' [= <-]. unfold goodb. cbn. apply andb_true_iff in Hg1 as [_ Hg1]. by rewrite Hg1, Hg2.
      * intros w' [= <-]. cbn. intros Y. destruct (Hy Y) as (Y1 & Y2 & Y3 & Y4 & Y5 & Y6). exfalso. apply andb_true_iff in Hg1 as [Hg1 _]. cbn in Y. unfold yields in Hg1. by rewrite Y in Hg1.
      * intros w' [= <-] _ Hb. by apply Hu.
      * done.
    + apply Hfine. destruct (Hy eq_refl) as (Y1 & Y2 & Y3 & Y4 & Y5 & Y6). cbn in Y5. split; cbn; auto; try done.
      * intros Hf. apply Forall_app. split; [auto|]. constructor; [|constructor]. cbn. by apply (H4 (Waiting c h (IYield :: r))).
      * apply Forall_app. split; [done|]. constructor; [|constructor]. repeat split; try done. right. done.
      * intros Hd Hk. apply Forall_app. split; [auto|]. constructor; [|constructor]. unfold calm. cbn. exact (Y6 Hd Hk).
  - destruct (l_in s) eqn:Ei; [|by apply Hfine]. set (s' := if ends then _ else s).
    assert (Hs' : LI s').
    { destruct ends; [|done]. pose proof Hs as [H1 H2 H3 H4 H5 H6 H7 H8 H9 H10].
      assert (Hf : forall P : waiting -> Prop, Forall P (l_wait s) -> Forall P (if l_down s then l_wait s else List.filter (fun w => negb (stopped (w_call w))) (l_wait s))).
      { intros P HP. destruct (l_down s); [done|]. rewrite list.Forall_forall in HP |- *. intros w Hw. apply elem_of_list_In, List.filter_In in Hw as [Hw _]. by apply HP, elem_of_list_In. }
      subst s'. split; cbn; auto; try done.
      - intros Hk. split; [done|]. by apply H2.
      - intros _ Hk. destruct (l_down s) eqn:Ed; [by apply H6|]. apply list.Forall_forall. intros w Hw. apply elem_of_list_In, List.filter_In in Hw as [Hw Hst].
        apply elem_of_list_In in Hw. apply negb_true_iff in Hst. apply rest_calm; [by apply (list.Forall_forall stage (l_wait s))|done| |done]. cbn in Hc. rewrite list.Forall_forall in Hc. by apply Hc.
      - intros w Hr Hy. destruct (H8 w Hr Hy) as (Y1 & _). congruence. }
    destruct (leads k) eqn:El; [apply Htouch; [by eapply alive_in|done]|by apply Hfine].
  - destruct (l_in s) eqn:Ei; [|by apply Hfine].
    assert (Hs' : LI (set_run s (l_run s) false)).
    { pose proof Hs as [H1 H2 H3 H4 H5 H6 H7 H8 H9 H10]. split; cbn; auto; try done.
      - intros w Hr Hy. destruct (H8 w Hr Hy) as (Y1 & _). congruence.
      - intros w Hr _ Hb. destruct (H10 Ei) as (w' & Hr' & K1 & K3 & K2). rewrite Hr in Hr'. injection Hr' as <-. unfold calm in K1.
        destruct k eqn:Ek; [|by rewrite K1 in Hb| |].
        + destruct (l_kept s) eqn:E; [done|]. by destruct (H2 eq_refl).
        + by apply K3.
        + pose proof (H7 w Hr) as Hg. unfold goodb in Hg. rewrite Ek, Hb in Hg. by rewrite andb_false_r in Hg. }
    destruct (leads k) eqn:El; [apply Htouch; [by eapply alive_in|done]|by apply Hfine].
  - destruct (l_kept s) eqn:Ek; [|by apply Hfine]. destruct (l_down s) eqn:Ed; [|by apply Hfine]. destruct (may_drop k s) eqn:Em; [|by apply Hfine]. cbn. apply Hfine.
    pose proof Hs as [H1 H2 H3 H4 H5 H6 H7 H8 H9 H10]. rewrite Ed in H6, H8. split; cbn; auto; try done.
    + intros _. split; [done|]. intros ->. done.
    + intros w Hr Hi Hb. exfalso. unfold may_drop in Em. destruct k eqn:E; try done; try congruence.
      * rewrite Hr in Em. done.
      * pose proof (H7 w Hr) as Hg. unfold goodb in Hg. rewrite E, Hb in Hg. by rewrite andb_false_r in Hg.
    + intros Hi. destruct (H10 Hi) as (w & Hr & K1 & K3 & K2). exists w. split; [done|]. split; [done|]. split; [intros E; unfold may_drop in Em; rewrite E, Hr in Em; done|]. intros Hl. destruct (K2 Hl) as [?|[_ E]]; [by left|]. unfold may_drop in Em. rewrite E, Hr in Em. done.
Qed.
Lemma run_LI ops s : LI s -> guarded lstep (careful k) s ops -> exists s' e, run lstep s ops = Ok (s', e) /\ LI s'.
Proof.
  revert s. induction ops as [|o ops IH]; intros s Hs Hg; [by eexists _, _|]. destruct Hg as [Hok Hg].
  destruct (step_LI s o Hs Hok) as (s1 & e1 & E & Hs1). cbn in Hg |- *. rewrite E in Hg |- *. cbn. destruct (IH s1 Hs1 Hg) as (s2 & e2 & -> & Hs2). cbn. eauto.
Qed.

(** Freed exactly when nothing points to it. *)
Lemma held_freed s : LI s -> l_freed s = true -> held s = false.
Proof.
  intros Hs Hf. unfold held. rewrite !orb_false_iff. repeat split.
  - destruct (l_kept s) eqn:E; [|done]. by rewrite (li_kept _ Hs E) in Hf.
  - pose proof (li_fwait _ Hs Hf) as H. induction H as [|w l Hw _ IH]; [done|]. cbn. by rewrite Hw.
  - destruct (l_run s) as [w|] eqn:E; [|done]. by apply (li_frun _ Hs w).
Qed.
Lemma settled s o s' e : lstep s o = Ok (s', e) -> exists s1, s' = settle s1.
Proof.
  assert (Hf : forall s1, fine s1 = Ok (s', e) -> exists s1, s' = settle s1) by (intros s1 [= <- <-]; eauto).
  assert (Ht : forall s1, touch s s1 = Ok (s', e) -> exists s1, s' = settle s1) by (intros s1; unfold touch; destruct (l_freed s); [done|]; intros [= <- <-]; eauto).
  destruct o as [c|i| |ends| |]; cbn [LoopCallModel.lstep].
  - destruct (_ && _); apply Hf.
  - destruct (l_run s); [apply Hf|]. destruct (l_wait s !! i); apply Hf.
  - destruct (l_run s) as [[c h [|[] r]]|]; try apply Hf; destruct (l_in s); first [apply Hf|apply Ht].
  - destruct (l_in s); [|apply Hf]. destruct (leads k); first [apply Hf|apply Ht].
  - destruct (l_in s); [|apply Hf]. destruct (leads k); first [apply Hf|apply Ht].
  - destruct (_ && _); apply Hf.
Qed.
Lemma run_freed ops s s' e : LI s -> l_freed s = negb (held s) -> guarded lstep (careful k) s ops -> run lstep s ops = Ok (s', e) -> l_freed s' = negb (held s').
Proof.
  revert s s' e. induction ops as [|o ops IH]; intros s s' e Hs Hf Hg Hr; cbn in Hg, Hr; [by injection Hr as <- <-|]. destruct Hg as [Hok Hg].
  destruct (step_LI s o Hs Hok) as (s1 & e1 & E & Hs1). rewrite E in Hg, Hr. cbn in Hr. destruct (run lstep s1 ops) as [[s2 e2]| |] eqn:E2; try done. cbn in Hr. injection Hr as <- <-.
  eapply IH; [exact Hs1| |exact Hg|exact E2]. destruct (settled _ _ _ _ E) as [s0 ->]. destruct (l_freed (settle s0)) eqn:Ef; [by rewrite (held_freed _ Hs1 Ef)|].
  cbn in Ef. apply orb_false_iff in Ef as [_ Ef]. symmetry. exact Ef.
Qed.
End proofs.

(** One callback, and the parent drops its pointer as soon as it may. *)
Definition trial (c : call) : list lop := [LCall c; LStart 0; LStep; LStep; LStart 0; LStep; LStep; LHandle true; LDrop; LLeave; LStep; LStep].
Definition resourcefulb (s : lstate) (o : lop) : bool :=
  match o with LHandle true => forallb (fun w => match w_call w with AsioForward => false | _ => true end) (l_wait s) | _ => true end.
Lemma resourcefulb_sound s o : resourcefulb s o = true -> resourceful s o.
Proof.
  destruct o as [| | |[]| |]; try done. cbn. intros H. apply list.Forall_forall. intros w Hw E. rewrite List.forallb_forall in H. apply elem_of_list_In in Hw. specialize (H w Hw). by rewrite E in H.
Qed.
Lemma trial_crash c k : sound c k = false -> guarded (lstep k) resourceful linit (trial c) /\ run (lstep k) linit (trial c) = Crash.
Proof.
  intros H. split.
  - apply (guardedb_sound _ resourcefulb); [apply resourcefulb_sound|]. destruct c, k; try done; vm_compute; done.
  - destruct c, k; try done; vm_compute; done.
Qed.
