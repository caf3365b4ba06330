(** What keeps an object; what a message sent on is held by. *)
From stdpp Require Import base list gmap.
From Verif Require Import Base MemModel MemSpec MemInv MemProofs MemTemps MemFacts MemEnds.
Open Scope N_scope.

Definition actorb (s : mem) (o : N) : bool :=
  match heap s !! o with Some b => bool_decide (o_kind b = KActor) | None => false end.
Definition rank (s : mem) (o : N) : nat :=
  if actorb s o then N.to_nat (next s + 1 + o) else N.to_nat (next s - o).
Lemma kept_all s : JS s -> dying s = [] -> forall n o, (rank s o < n)%nat -> allocated s o -> kept s o.
Proof.
  intros HJ Hd. induction n as [|n IH]; intros o Hr [b Hb]; [lia|].
  assert (Hnz : o_cnt b <> 0). { intros Hz. assert (Hin : o ∈ ids (dying s)) by (apply (j_die _ _ _ _ HJ); by exists b). rewrite Hd in Hin. by apply elem_of_nil in Hin. }
  rewrite (j_cnt _ _ _ _ HJ o b Hb) in Hnz. destruct (pointers_some o (ptrs s)) as [c Hc]; [lia|].
  destruct c as [u x|u x| |u|p f|p|p]; try (eapply kept_root; [exact Hc | done | done]).
  destruct (j_own _ _ _ _ HJ _ _ p Hc eq_refl) as [bp Hbp].
  pose proof (j_next _ _ _ _ HJ p (ex_intro _ bp Hbp)) as Hpn. pose proof (j_next _ _ _ _ HJ o (ex_intro _ b Hb)) as Hon.
  destruct f; try (eapply kept_root; [exact Hc | done | done]); eapply kept_in; [exact Hc | done | | exact Hc | done |]; (apply IH; [|by exists bp]).
  - destruct (j_inner _ _ _ _ HJ p o Hc) as [Hlt Hk]. specialize (Hk bp Hbp). unfold rank, actorb in *. rewrite Hb in Hr. rewrite Hbp, bool_decide_eq_false_2 by done.
    case_bool_decide; lia.
  - destruct (j_child _ _ _ _ HJ p o Hc) as [Hlt (b' & Hb' & Hk)]. unfold rank, actorb in *. rewrite Hb' in Hr. rewrite bool_decide_eq_true_2 in Hr by done. rewrite Hbp.
    case_bool_decide; lia.
Qed.
Lemma kept_holder s o : kept s o -> exists c q, holds s c q /\ (forall p, c <> CField p FInner) /\ (forall p, c <> CField p FChild).
Proof. induction 1 as [c o Hc H1 H2|p f o Hh Hb Hk IH]; [by exists c, o | done]. Qed.

Lemma run_kept ops s ev : run mstep minit ops = Ok (s, ev) -> dying s = [] -> forall o, allocated s o -> kept s o.
Proof. intros Hr Hd o. apply run_MI in Hr as [HJ _ _ _]. eapply kept_all; [done | done | apply Nat.lt_succ_diag_r]. Qed.
Lemma run_empty ops s ev : run mstep minit ops = Ok (s, ev) -> dying s = [] ->
  (forall c o, holds s c o -> exists p f, c = CField p f /\ back f = false) -> heap s = ∅ /\ forall o, o < next s -> o ∈ freed ev.
Proof.
  intros Hr Hd Hh. assert (He : heap s = ∅).
  { apply map_empty. intros o. apply eq_None_not_Some. intros Ho. apply (run_kept _ _ _ Hr Hd) in Ho.
    apply kept_holder in Ho as (c & q & Hc & H1 & H2). destruct (Hh c q Hc) as (p & [] & -> & Hf); try done; [by destruct (H1 p) | by destruct (H2 p)]. }
  split; [done|]. intros o Ho. apply run_FR in Hr as [_ _ Hiff]. apply Hiff. rewrite He. done.
Qed.
Lemma run_temps ops s ev t : run mstep minit ops = Ok (s, ev) -> prog s t = [] ->
  forall x o, ~ holds s (CRaw t x) o /\ (x <> 1 -> ~ holds s (CVar t x) o).
Proof.
  intros Hr Hp x o. apply run_MI in Hr as [_ _ _ Ht]. destruct (Ht t) as (k & Hk & Hb). rewrite Hp in Hk. simpl in Hk. injection Hk as ->.
  assert (Hz : forall c y, temp_of t c = Some y -> forall p, (c, p) ∉ ptrs s).
  { intros c y Hy. apply size_zero. specialize (Hb c y Hy). rewrite bool_decide_eq_false_2 in Hb by apply not_elem_of_nil. lia. }
  split; [exact (Hz _ _ (temp_raw t x) (Some o))|]. intros Hx. assert (Hv : temp_of t (CVar t x) = Some (TVar x)).
  { rewrite temp_var. unfold tv. by destruct (N.eqb_spec x 1). }
  exact (Hz _ _ Hv (Some o)).
Qed.

(** One pointer only. *)
Lemma pointers_one o l l' c : l ≡ₚ (c, Some o) :: l' -> pointers o l = 1%nat -> forall d, (d, Some o) ∈ l' -> False.
Proof. intros Hl H1 d Hd. rewrite (pointers_perm _ _ _ Hl), pointers_cons in H1. simpl in H1. rewrite bool_decide_eq_true_2 in H1 by done. apply pointers_pos in Hd. lia. Qed.
Lemma sole s t x q p s' ev o : MI s -> prog s t = IRoute x q :: p -> current t (dying s) = None ->
  mstep s (MGo t) = Ok (s', ev) -> ~ holds s (CQueue q) o -> holds s' (CQueue q) o ->
  (forall c, holds s c o <-> c = CVar t x) /\ (forall c, holds s' c o <-> c = CQueue q) /\ pointers o (ptrs s') = 1%nat.
Proof.
  intros [HJ _ _ _] Hp Hc Hs Hno Hyes. simpl in Hs. rewrite Hc, Hp in Hs. cbn [exec] in Hs.
  cbn [ptrs heap set_prog] in Hs.
  destruct (take1 (CVar t x) (ptrs s)) as [[[o1|] l]|] eqn:Ht; cbn [rbind] in Hs; [|injection Hs as <- <-; done|injection Hs as <- <-; done].
  pose proof (take1_perm _ _ _ _ Ht) as Hl.
  destruct (heap s !! o1) as [b|] eqn:Hb; [|done].
  assert (Hold : forall c, (c, Some o) ∈ l -> holds s c o) by (intros c Hin; unfold holds; rewrite Hl; by right).
  destruct (o_route b && (o_cnt b =? 1)) eqn:Hcond.
  - apply andb_true_iff in Hcond as [_ Hone]. apply N.eqb_eq in Hone.
    destruct (open _ (CQueue q)); [|done]. cbn [rbind] in Hs. injection Hs as <- <-. unfold holds in Hyes. simpl in Hyes.
    apply elem_of_app in Hyes as [Hin|Hin]; [by destruct Hno; apply Hold|]. apply elem_of_list_singleton in Hin as [= ->].
    assert (H1 : pointers o1 (ptrs s) = 1%nat). { pose proof (j_cnt _ _ _ _ HJ o1 b Hb). lia. }
    pose proof (pointers_one _ _ _ _ Hl H1) as Hnone. split_and!.
    + intros c. unfold holds. rewrite Hl, elem_of_cons. split; [intros [[=]|Hin]; [done | by destruct (Hnone c)] | intros ->; by left].
    + intros c. unfold holds. simpl. rewrite elem_of_app, elem_of_list_singleton. split; [intros [Hin|[=]]; [by destruct (Hnone c) | done] | intros ->; by right].
    + simpl. rewrite (pointers_perm o1 _ ((CQueue q, Some o1) :: l)) by (symmetry; apply Permutation_cons_append).
      rewrite pointers_cons. rewrite (pointers_perm _ _ _ Hl), pointers_cons in H1. simpl in *. lia.
  - cbn [rbind] in Hs. injection Hs as <- <-. done.
Qed.

(** Threads which are not mentioned do nothing. *)
Definition thread (o : mop) : N := match o with MCall t _ | MGo t => t end.
Lemma step_out s o s' ev t : MI s -> mstep s o = Ok (s', ev) -> t <> thread o -> prog s' t = prog s t.
Proof.
  intros HM Hs Ht. destruct o as [u f|u]; simpl in Hs, Ht.
  - repeat case_match; try done; injection Hs as <- <-; try done. simpl. by rewrite bool_decide_eq_false_2.
  - destruct (current u (dying s)) as [[[o p] d]|] eqn:Hc.
    + destruct (destroy s u o p d) as [s1| |] eqn:Hd; cbn [rbind] in Hs; try done. injection Hs as <- <-.
      destruct (destroy_same _ _ _ _ _ _ Hd) as [H1 _]. by rewrite H1.
    + destruct (prog s u) as [|i p] eqn:Hp; [by injection Hs as <- <-|].
      destruct (exec (set_prog s u p) u i) as [s1| |] eqn:He; cbn [rbind] in Hs; try done. injection Hs as <- <-.
      pose proof (mi_ok _ HM u) as Hot. rewrite Hp in Hot. simpl in Hot. apply andb_true_iff in Hot as [Hi _].
      destruct (exec_tidy (set_prog s u p) _ _ _ (mi_solid _ HM) He Hi) as [_ _ _ Hpr].
      destruct Hpr as [Hpr|(q & _ & _ & Hpr)]; rewrite Hpr by done; simpl; by rewrite bool_decide_eq_false_2.
Qed.
Lemma run_out t ops : forall s s' ev, MI s -> run mstep s ops = Ok (s', ev) -> forallb (fun o => negb (thread o =? t)) ops = true -> prog s' t = prog s t.
Proof.
  induction ops as [|o ops IH]; intros s s' ev HM Hr Ho; simpl in *; [by injection Hr as <- _|].
  destruct (mstep s o) as [[s1 e1]| |] eqn:Hs; simpl in Hr; try done.
  destruct (run mstep s1 ops) as [[s2 e2]| |] eqn:Hr2; simpl in Hr; try done. injection Hr as <- _.
  apply andb_true_iff in Ho as [H1 H2]. rewrite (IH _ _ _ (step_ok _ _ _ _ HM Hs) Hr2 H2). eapply step_out; [done | done |].
  intros ->. by rewrite N.eqb_refl in H1.
Qed.
(** A boolean check of a run of the threads 0 and 1. *)
Definition two (ops : list mop) : bool := forallb (fun o => (thread o =? 0) || (thread o =? 1)) ops.
Definition idleb (s : mem) : bool :=
  match dying s, prog s 0, prog s 1 with [], [], [] => true | _, _, _ => false end.
Lemma two_idle ops s ev : run mstep minit ops = Ok (s, ev) -> two ops = true -> idleb s = true -> idle s.
Proof.
  intros Hr Ht Hi. unfold idleb in Hi. destruct (dying s) eqn:Hd; [|done]. destruct (prog s 0) eqn:H0; [|done]. destruct (prog s 1) eqn:H1; [|done].
  split; [done|]. intros t. destruct (N.eq_dec t 0) as [->|Hn0]; [done|]. destruct (N.eq_dec t 1) as [->|Hn1]; [done|].
  rewrite (run_out t _ _ _ _ MI_init Hr); [done|]. unfold two in Ht. rewrite forallb_forall in *. intros o Ho. specialize (Ht o Ho).
  apply negb_true_iff, N.eqb_neq. intros Hx. rewrite Hx in Ht. apply orb_true_iff in Ht as [Ht|Ht]; apply N.eqb_eq in Ht; done.
Qed.

(** ** A message which is to be sent on, when nobody comes between *)
Lemma release_two s t q s' m b : release s t q = Ok s' -> heap s !! m = Some b -> o_cnt b <> 0 -> o_cnt b <> 1 -> alive s' m.
Proof.
  intros Hr Hm H0 H1. destruct q as [o|]; simpl in Hr; [|injection Hr as <-; by exists b].
  unfold decr in Hr. destruct (heap s !! o) as [bo|] eqn:Ho; [|done]. destruct (N.eqb_spec (o_cnt bo) 0); [done|].
  destruct (decide (m = o)) as [->|Hne].
  - rewrite Hm in Ho. injection Ho as <-. destruct (N.eqb_spec (o_cnt b) 1); [done|]. injection Hr as <-. exists (Obj (o_kind b) (o_cnt b - 1) (o_route b)).
    simpl. rewrite lookup_insert. split; [done | simpl; lia].
  - exists b. split; [|done]. destruct (o_cnt bo =? 1); injection Hr as <-; simpl; by rewrite lookup_insert_ne.
Qed.
Lemma live_count s m : JS s -> alive s m -> forall b, heap s !! m = Some b -> o_cnt b <> 0.
Proof. intros _ (b' & Hb' & Hn) b Hb. congruence. Qed.
Lemma run_two s t s' ev : run mstep s [MGo t; MGo t] = Ok (s', ev) -> exists s1 e1 e2, mstep s (MGo t) = Ok (s1, e1) /\ mstep s1 (MGo t) = Ok (s', e2) /\ ev = e1 ++ e2.
Proof.
  cbn [run]. destruct (mstep s (MGo t)) as [[s1 e1]| |]; cbn [rbind]; try done.
  destruct (mstep s1 (MGo t)) as [[s2 e2]| |] eqn:H2; cbn [rbind]; try done. intros [= <- <-]. exists s1, e1, e2. split_and!; [done | done | by rewrite app_nil_r].
Qed.
Lemma end_keeps s t x q p m b s' ev : MI s -> current t (dying s) = None -> prog s t = IRoute x q :: IReset x :: p ->
  first s (CVar t x) = Some m -> heap s !! m = Some b -> o_route b = true -> run mstep s [MGo t; MGo t] = Ok (s', ev) -> alive s' m /\ ev = [].
Proof.
  intros HM Hc Hp Hf Hm Hrt Hr. apply run_two in Hr as (s1 & e1 & e2 & Hs1 & Hs2 & ->).
  pose proof (step_ok _ _ _ _ HM Hs1) as HM1. pose proof (step_ok _ _ _ _ HM1 Hs2) as HM2.
  simpl in Hs1. rewrite Hc, Hp in Hs1. cbn [exec] in Hs1. cbn [ptrs heap set_prog] in Hs1.
  pose proof (held_alive _ _ _ (mi_js _ HM) (first_in _ _ _ Hf)) as (b' & Hb' & Hnz). rewrite Hm in Hb'. injection Hb' as <-.
  unfold first in Hf. destruct (take1 (CVar t x) (ptrs s)) as [[[o|] l]|] eqn:Ht; try done. injection Hf as ->. rewrite Hm, Hrt in Hs1. simpl in Hs1.
  destruct (N.eqb_spec (o_cnt b) 1) as [H1|H1].
  - destruct (open _ (CQueue q)); [|done]. cbn [rbind] in Hs1. injection Hs1 as <- <-. simpl in Hs2. rewrite Hc in Hs2. rewrite bool_decide_eq_true_2 in Hs2 by done.
    cbn [exec] in Hs2. cbn [ptrs set_prog set_route set_ptrs] in Hs2.
    assert (Hh : (CQueue q, Some m) ∈ ptrs s').
    { destruct (take1 (CVar t x) (l ++ [(CQueue q, Some m)])) as [[r l2]|] eqn:Ht2; cbn [rbind] in Hs2.
      - destruct (release _ _ _) as [s3| |] eqn:Hrel; cbn [rbind] in Hs2; try done. injection Hs2 as <- <-.
        destruct (release_same _ _ _ _ Hrel) as [E _]. rewrite E. simpl. apply take1_perm in Ht2.
        assert (Hin : (CQueue q, Some m) ∈ l ++ [(CQueue q, Some m)]) by (apply elem_of_app; right; by left).
        rewrite Ht2 in Hin. apply elem_of_cons in Hin as [[=]|Hin]. done.
      - injection Hs2 as <- <-. simpl. apply elem_of_app. right. by left. }
    split; [eapply held_alive; [apply mi_js, HM2 | exact Hh]|]. destruct (take1 (CVar t x) (l ++ [(CQueue q, Some m)])) as [[r l2]|]; [|by injection Hs2 as <- <-].
    destruct (release _ _ _); cbn [rbind] in Hs2; try done. by injection Hs2 as <- <-.
  - cbn [rbind] in Hs1. injection Hs1 as <- <-. simpl in Hs2. rewrite Hc in Hs2. rewrite bool_decide_eq_true_2 in Hs2 by done.
    cbn [exec] in Hs2. cbn [ptrs set_prog] in Hs2. rewrite Ht in Hs2.
    destruct (release _ _ _) as [s3| |] eqn:Hrel; cbn [rbind] in Hs2; try done. injection Hs2 as <- <-. split; [|done].
    eapply release_two; [exact Hrel | exact Hm | done | done].
Qed.
Lemma call_keeps s t o d p m b bo s' ev : MI s -> current t (dying s) = Some (o, PRoute, d) -> heap s !! o = Some bo -> o_kind bo = KCall p ->
  first s (CField o FInner) = Some m -> heap s !! m = Some b -> o_route b = true -> run mstep s [MGo t; MGo t] = Ok (s', ev) -> alive s' m /\ ev = [].
Proof.
  intros HM Hc Ho Hk Hf Hm Hrt Hr. apply run_two in Hr as (s1 & e1 & e2 & Hs1 & Hs2 & ->).
  pose proof (step_ok _ _ _ _ HM Hs1) as HM1. pose proof (step_ok _ _ _ _ HM1 Hs2) as HM2.
  cbn [mstep] in Hs1. rewrite Hc, Ho in Hs1. rewrite bool_decide_eq_false_2 in Hs1 by done.
  pose proof (held_alive _ _ _ (mi_js _ HM) (first_in _ _ _ Hf)) as (b' & Hb' & Hnz). rewrite Hm in Hb'. injection Hb' as <-.
  assert (Hnext : forall s1 : mem, mstep s1 (MGo t) = Ok (s', e2) -> dying s1 = (t, o, PMembers) :: d ->
    e2 = [] /\ destroy s1 t o PMembers d = Ok s').
  { intros s2 Hs Hd. cbn [mstep] in Hs. rewrite Hd in Hs. cbn [current] in Hs. rewrite bool_decide_eq_true_2 in Hs by done.
    destruct (destroy s2 t o PMembers d) as [s3| |]; cbn [rbind] in Hs; try done. rewrite bool_decide_eq_false_2 in Hs by done.
    injection Hs as <- <-. split; [by destruct (heap s2 !! o) | done]. }
  assert (Hmo : forall s2 : mem, destroy s2 t o PMembers d = Ok s' -> ptrs s' = ptrs s2 \/ exists c r l, member o (ptrs s2) = Some (r, l) /\ MemModel.owner c = Some o /\ ptrs s2 ≡ₚ (c, r) :: ptrs s').
  { intros s2 Hd. simpl in Hd. destruct (member o (ptrs s2)) as [[r l]|] eqn:Hme; [|injection Hd as <-; by left].
    right. destruct (member_perm _ _ _ _ Hme) as (c & Hco & Hl). apply release_same in Hd as [E _]. exists c, r, l. rewrite E. done. }
  destruct (destroy s t o PRoute d) as [s2| |] eqn:Hde; cbn [rbind] in Hs1; try done. injection Hs1 as <- <-. simpl in Hde.
  destruct (due s o) as [[[m1 p1] l]|] eqn:Hdue.
  - destruct (due_sound _ _ _ _ _ Hdue) as (bo' & bm & Hbo' & Hk' & Ht & Hbm & _ & _). rewrite Hbm in Hde. destruct (usable s p1); [|done]. injection Hde as <-.
    unfold first in Hf. rewrite Ht in Hf. injection Hf as ->. destruct (Hnext _ Hs2 eq_refl) as [-> Hd2]. split; [|done].
    assert (Hh : (CIn p1, Some m) ∈ ptrs s'); [|eapply held_alive; [apply mi_js, HM2 | exact Hh]].
    assert (Hin : (CIn p1, Some m) ∈ l ++ [(CIn p1, Some m)]) by (apply elem_of_app; right; by left).
    destruct (Hmo _ Hd2) as [->|(c & r & l2 & _ & Hco & Hl)]; [done|]. simpl in Hl. pose proof Hin as Hin2. rewrite Hl in Hin. apply elem_of_cons in Hin as [[= <- <-]|Hin]; [|done].
    exfalso. simpl in Hco. injection Hco as ->. eapply (j_in _ _ _ _ (mi_js _ HM1) t o PMembers); [by left | done | exact Hin2].
  - injection Hde as <-. destruct (Hnext _ Hs2 eq_refl) as [-> Hd2]. split; [|done].
    assert (Hn1 : o_cnt b <> 1).
    { intros H1. unfold due in Hdue. rewrite Ho in Hdue. destruct bo as [ko no ro]. simpl in Hk. subst ko. unfold first in Hf.
      destruct (take1 (CField o FInner) (ptrs s)) as [[[m2|] l]|]; try done. injection Hf as ->. rewrite Hm, Hrt, H1 in Hdue. done. }
    simpl in Hd2. destruct (member o (ptrs s)) as [[r l]|].
    + eapply release_two; [exact Hd2 | exact Hm | done | done].
    + injection Hd2 as <-. by exists b.
Qed.
