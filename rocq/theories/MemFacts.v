(** The invariant of the whole, and what follows from it. *)
From stdpp Require Import base list gmap.
From Verif Require Import Base MemModel MemSpec MemInv MemProofs MemTemps.
Open Scope N_scope.

Record MI (s : mem) : Prop := {
  mi_js : JS s;
  mi_ok : forall t, forallb ok_instr (prog s t) = true;
  mi_solid : solid (ptrs s);
  mi_temps : forall t, exists k, after t (prog s t) k = Some [] /\ bound (ptrs s) t k
}.

Lemma MI_init : MI minit.
Proof. split; [apply J_init | done | intros c Hc; by apply elem_of_nil in Hc | intros t; exists []; split; [done|]; intros c x _; simpl; lia]. Qed.

Lemma due_sound s o m p l : due s o = Some (m, p, l) -> exists b bm, heap s !! o = Some b /\ o_kind b = KCall p /\
  take1 (CField o FInner) (ptrs s) = Some (Some m, l) /\ heap s !! m = Some bm /\ o_route bm = true /\ o_cnt bm = 1.
Proof.
  unfold due. destruct (heap s !! o) as [[k n r]|] eqn:Ho; [|done]. destruct k; try done.
  destruct (take1 _ _) as [[[m1|] l1]|] eqn:Ht; try done. destruct (heap s !! m1) as [bm|] eqn:Hm; [|done].
  destruct (o_route bm && _) eqn:Hc; [|done]. intros [= <- <- <-]. apply andb_true_iff in Hc as [H1 H2]. apply N.eqb_eq in H2.
  by exists (Obj (KCall s0) n r), bm.
Qed.
Definition undue (s : mem) (o : N) (p : phase) : Prop := p = PRoute /\ exists m q l, due s o = Some (m, q, l) /\ ~ alive s q.
Lemma destroy_fine s t o p d : JS s -> current t (dying s) = Some (o, p, d) -> fine (destroy s t o p d) (undue s o p).
Proof.
  intros HJ Hc. pose proof (current_perm _ _ _ _ _ Hc) as Hp.
  assert (HJ2 : J (heap s) (ptrs s) ((t, o, p) :: d) (next s)) by (eapply J_perm; [reflexivity | exact Hp | exact HJ]).
  destruct p; simpl.
  - destruct (take1 (CIn o) (ptrs s)) as [[q l]|] eqn:Ht.
    + eapply fine_release. eapply J_perm; [exact (take1_perm _ _ _ _ Ht) | reflexivity | exact HJ2].
    + simpl. apply J_phase_route; [done | by apply take1_none].
  - destruct (due s o) as [[[m q] l]|] eqn:Hdue; [|by apply J_phase_members].
    destruct (due_sound _ _ _ _ _ Hdue) as (b & bm & Hb & Hk & Ht & Hbm & _ & _). apply take1_perm in Ht.
    destruct (usable s q) eqn:Hu; [|simpl; split; [done|]; exists m, q, l; split; [done|]; intros Ha; apply usable_alive in Ha; congruence].
    rewrite Hbm. apply J_phase_members in HJ2. apply (J_perm _ _ _ _ _ _ Ht (Permutation_refl _)) in HJ2.
    apply (J_move _ _ (CIn q)) in HJ2.
    + eapply JS_at; [|apply Permutation_cons_append|reflexivity]. eapply J_route; [exact HJ2 | done].
    + apply (room_plain s); [done | done | done].
  - destruct (member o (ptrs s)) as [[q l]|] eqn:Ht.
    + destruct (member_perm _ _ _ _ Ht) as (c & _ & Hl). eapply fine_release. eapply J_perm; [exact Hl | reflexivity | exact HJ2].
    + simpl. apply J_phase_free; [done|]. by apply member_none.
  - simpl. by eapply J_freed.
Qed.
(** A destructor removes a pointer, or moves one out of its object, or neither. *)
Lemma destroy_same s t o p d s' : destroy s t o p d = Ok s' -> prog s' = prog s /\
  (ptrs s' = ptrs s \/ (exists e, ptrs s ≡ₚ e :: ptrs s') \/ exists m q l, ptrs s ≡ₚ (CField o FInner, Some m) :: l /\ ptrs s' ≡ₚ (CIn q, Some m) :: l).
Proof.
  destruct p; simpl.
  - destruct (take1 (CIn o) (ptrs s)) as [[q l]|] eqn:Ht; [|intros [= <-]; by auto].
    intros Hr. apply release_same in Hr as [H1 H2]. rewrite H1, H2. simpl. split; [done|]. right. left. eexists. by eapply take1_perm.
  - destruct (due s o) as [[[m q] l]|] eqn:Hdue; [|intros [= <-]; by auto].
    destruct (due_sound _ _ _ _ _ Hdue) as (b & bm & _ & _ & Ht & Hbm & _ & _). rewrite Hbm. case_match; [|done]. intros [= <-]. simpl. split; [done|].
    right. right. exists m, q, l. split; [by apply take1_perm | symmetry; apply Permutation_cons_append].
  - destruct (member o (ptrs s)) as [[q l]|] eqn:Ht; [|intros [= <-]; by auto].
    intros Hr. apply release_same in Hr as [H1 H2]. rewrite H1, H2. simpl. split; [done|]. right. left.
    destruct (member_perm _ _ _ _ Ht) as (c & _ & Hl). by eexists.
  - intros [= <-]. by auto.
Qed.
Lemma eff_drain t p k : eff t (IDrain p) k = Some k. Proof. done. Qed.

Lemma step_ok s o s' ev : MI s -> mstep s o = Ok (s', ev) -> MI s'.
Proof.
  intros [HJ Hok Hsol Ht]. destruct o as [t f|t]; simpl.
  - destruct (prog s t) eqn:Hp; [|intros [= <- <-]; done]. destruct (current t (dying s)); [intros [= <- <-]; done|]. destruct (ready s t f); [|intros [= <- <-]; done]. intros [= <- <-].
    split; simpl; [exact HJ | | done |].
    + intros u. case_bool_decide; [apply body_ok | apply Hok].
    + intros u. case_bool_decide as Hu; [subst u | apply Ht]. exists []. split; [apply body_clean|].
      destruct (Ht t) as (k & Hk & Hb). rewrite Hp in Hk. simpl in Hk. by injection Hk as ->.
  - destruct (current t (dying s)) as [[[o p] d]|] eqn:Hc.
    + destruct (destroy s t o p d) as [s1| |] eqn:Hd; cbn [rbind]; try done. intros [= <- <-].
      pose proof (destroy_fine s t o p d HJ Hc) as Hf. rewrite Hd in Hf.
      destruct (destroy_same _ _ _ _ _ _ Hd) as [H1 H2]. split; [exact Hf | by rewrite H1 | |].
      * intros c Hin. destruct H2 as [H2|[[e H2]|(m & q & l & H2 & H3)]]; [apply Hsol; by rewrite <- H2 | apply Hsol; rewrite H2; by right|].
        rewrite H3 in Hin. apply elem_of_cons in Hin as [[=]|Hin]. apply Hsol. rewrite H2. by right.
      * intros u. destruct (Ht u) as (k & Hk & Hb). exists k. rewrite H1. split; [done|]. eapply bound_less; [exact Hb|].
        intros c Hcc. destruct H2 as [H2|[[e H2]|(m & q & l & H2 & H3)]]; [by rewrite H2 | rewrite (size_perm _ _ _ H2); simpl; lia|].
        rewrite (size_perm _ _ _ H2), (size_perm _ _ _ H3). simpl. rewrite (bool_decide_eq_false_2 (CIn q = c)) by (intros <-; done). lia.
    + destruct (prog s t) as [|i p] eqn:Hp; [intros [= <- <-]; done|].
      destruct (exec (set_prog s t p) t i) as [s1| |] eqn:He; cbn [rbind]; try done. intros [= <- <-].
      pose proof (Hok t) as Hot. rewrite Hp in Hot. simpl in Hot. apply andb_true_iff in Hot as [Hi Hop].
      assert (HJ2 : JS (set_prog s t p)) by exact HJ.
      pose proof (exec_fine _ t i HJ2 Hi) as Hf. rewrite He in Hf.
      destruct (exec_tidy _ _ _ _ (Hsol : solid (ptrs (set_prog s t p))) He Hi) as [Ho Hw Hs Hpr]. simpl in Ho, Hw, Hs, Hpr.
      rewrite bool_decide_eq_true_2 in Hpr by done.
      split; [exact Hf | | by apply Hs |].
      * intros u. destruct Hpr as [Hpr|(q & Hq & Ha & Hb)].
        -- rewrite Hpr. case_bool_decide; [done | apply Hok].
        -- destruct (decide (u = t)) as [->|Hu]; [rewrite Ha; simpl; by rewrite Hi, Hop|]. rewrite Hb by done. rewrite bool_decide_eq_false_2 by done. apply Hok.
      * intros u. destruct (Ht u) as (k & Hk & Hb). destruct (decide (u = t)) as [->|Hu].
        -- rewrite Hp in Hk. cbn [after] in Hk. destruct (eff t i k) as [k'|] eqn:Hek; [|done].
           exists k'. split; [|by eapply Hw]. destruct Hpr as [Hpr|(q & -> & Ha & _)].
           ++ rewrite Hpr, bool_decide_eq_true_2 by done. done.
           ++ rewrite Ha. cbn [after eff]. done.
        -- exists k. split.
           ++ destruct Hpr as [Hpr|(q & _ & _ & Hpr)]; rewrite Hpr by done; rewrite bool_decide_eq_false_2 by done; done.
           ++ eapply bound_less; [exact Hb|]. intros c Hcc. by apply (Ho u).
Qed.
Lemma step_safe s o : MI s -> mrule s o -> exists s' ev, mstep s o = Ok (s', ev).
Proof.
  intros [HJ Hok Hsol Ht]. destruct o as [t f|t]; simpl.
  - intros _. repeat case_match; eauto.
  - destruct (current t (dying s)) as [[[o p] d]|] eqn:Hc.
    + intros Hru. pose proof (destroy_fine s t o p d HJ Hc) as Hf. destruct (destroy s t o p d); simpl in *; [eauto | done |].
      exfalso. destruct Hf as [-> (m & q & l & Hdue & Hna)]. by eapply Hna, Hru.
    + destruct (prog s t) as [|i p] eqn:Hp; [eauto|]. intros [H1 H2].
      pose proof (Hok t) as Hot. rewrite Hp in Hot. simpl in Hot. apply andb_true_iff in Hot as [Hi _].
      pose proof (exec_fine (set_prog s t p) t i HJ Hi) as Hf.
      destruct (exec (set_prog s t p) t i) as [s1| |]; simpl in *; [eauto | done |].
      exfalso. destruct Hf as [(c & Hcp & q & Hq & Hna)|(q & Hq & Hna)].
      * by eapply Hna, H1.
      * by apply Hna, H2.
Qed.

Lemma run_MI ops s ev : run mstep minit ops = Ok (s, ev) -> MI s.
Proof. apply (run_inv mstep MI); [intros s1 o s2 e; apply step_ok | apply MI_init]. Qed.
