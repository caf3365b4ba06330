(** Functions and destructors come to an end; every object is freed at most once. *)
From stdpp Require Import base list gmap.
From Verif Require Import Base MemModel MemSpec MemInv MemProofs MemTemps MemFacts.
Open Scope N_scope.

Definition dw (d : list (N * N * phase)) : nat := sum ((fun x => rest x.2) <$> d).
Lemma sum_perm l l' : l ≡ₚ l' -> sum l = sum l'.
Proof. induction 1; simpl; lia. Qed.
Lemma dw_cons t o p d : dw ((t, o, p) :: d) = (rest p + dw d)%nat.
Proof. done. Qed.
Lemma decr_work s t o s' : decr s t o = Ok s' -> (dw (dying s') <= dw (dying s) + 4)%nat.
Proof. unfold decr. repeat case_match; try done; intros [= <-]; cbn [dying set_cnt]; rewrite ?dw_cons; cbn [rest]; lia. Qed.
Lemma release_work s t p s' : release s t p = Ok s' -> (dw (dying s') <= dw (dying s) + 4)%nat.
Proof. destruct p; simpl; [apply decr_work | intros [= <-]; lia]. Qed.
Lemma copy_work s o c s' : copy s o c = Ok s' -> dying s' = dying s.
Proof. unfold copy, incr. repeat case_match; try done; simpl; by intros [= <-]. Qed.
Lemma fill_work n os : forall s s', fill s n os = Ok s' -> dying s' = dying s.
Proof.
  induction os as [|o os IH]; intros s s'; cbn [fill]; [by intros [= <-]|].
  destruct (copy s o (CField n FInner)) as [s1| |] eqn:Hc; cbn [rbind]; try done. intros Hf.
  apply copy_work in Hc. apply IH in Hf. congruence.
Qed.
Lemma loads_length s t inner : forall os, loads s t inner = Ok os -> (length os <= length inner)%nat.
Proof.
  induction inner as [|x inner IH]; intros os; simpl; [intros [= <-]; simpl; lia|].
  destruct (load s t x) as [p| |]; cbn [rbind]; try done. destruct (loads s t inner) as [os1| |]; cbn [rbind]; try done.
  intros [= <-]. rewrite app_length. specialize (IH _ eq_refl). destruct p; simpl; lia.
Qed.
Lemma put_length b (e : entry) l : length (put_entry b e l) = S (length l).
Proof. destruct b; simpl; [done|]. rewrite app_length. simpl. lia. Qed.

(** One operation: what it adds is covered by its weight. *)
Lemma exec_work s t i s' : exec s t i = Ok s' -> ok_instr i = true ->
  (5 * length (ptrs s') + dw (dying s') + sum (weight <$> prog s' t) < weight i + 5 * length (ptrs s) + dw (dying s) + sum (weight <$> prog s t))%nat.
Proof.
  intros He Hi.
  destruct i as [x|x kd route inner|c x|c bk r|r x add|c bk|x c fr|x p|r p|p r|x|c o|p|x p|x rt]; cbn [exec weight] in *.
  - injection He as <-. simpl. rewrite app_length. simpl. lia.
  - case_bool_decide; [done|]. destruct (loads s t inner) as [os| |] eqn:Hl; cbn [rbind] in He; try done.
    pose proof (fill_work _ _ _ _ He) as H3. apply fill_same in He as [H1 H2]. rewrite H1, H2, H3. simpl.
    rewrite !app_length, fmap_length. simpl. apply loads_length in Hl. lia.
  - destruct (open s c); [|done]. destruct (first s c) as [o|]; [|injection He as <-; lia].
    pose proof (copy_work _ _ _ _ He) as H3. apply copy_same in He as [H1 H2]. rewrite H1, H2, H3, app_length. simpl. lia.
  - destruct (open s c); [|done]. destruct (take bk c (ptrs s)) as [[[o|] l]|] eqn:Ht; try (injection He as <-; lia).
    pose proof (Permutation_length (take_perm _ _ _ _ _ Ht)) as Hp. injection He as <-. simpl in *. rewrite app_length. simpl.
    destruct (MemModel.owner c); rewrite ?put_length; lia.
  - simpl in Hi. apply negb_true_iff in Hi as ->. destruct (take1 (CRaw t r) (ptrs s)) as [[[o|] l]|] eqn:Ht; try (injection He as <-; lia).
    pose proof (Permutation_length (take1_perm _ _ _ _ Ht)) as Hp. injection He as <-. simpl in *. rewrite app_length. simpl. lia.
  - destruct (open s c); [|done]. destruct (take bk c (ptrs s)) as [[q l]|] eqn:Ht; [|injection He as <-; lia].
    pose proof (Permutation_length (take_perm _ _ _ _ _ Ht)) as Hp.
    pose proof (release_work _ _ _ _ He) as H3. apply release_same in He as [H1 H2]. rewrite H1, H2. simpl in *. lia.
  - destruct (take1 (CVar t x) (ptrs s)) as [[[o|] l]|] eqn:Ht; try (injection He as <-; lia). destruct (open s c); [|done].
    pose proof (Permutation_length (take1_perm _ _ _ _ Ht)) as Hp. injection He as <-. simpl in *. rewrite put_length. lia.
  - destruct (take1 (CVar t x) (ptrs s)) as [[[o|] l]|] eqn:Ht; try (injection He as <-; lia). destruct (open s _); [|done].
    pose proof (Permutation_length (take1_perm _ _ _ _ Ht)) as Hp. case_match; injection He as <-; simpl in *; rewrite ?app_length; simpl; lia.
  - destruct (take1 (CRaw t r) (ptrs s)) as [[[o|] l]|] eqn:Ht; try (injection He as <-; lia). destruct (open s _); [|done].
    pose proof (Permutation_length (take1_perm _ _ _ _ Ht)) as Hp. injection He as <-; simpl in *; rewrite ?app_length; simpl; lia.
  - destruct (open s _); [|done]. destruct (take1 (CIn p) (ptrs s)) as [[[o|] l]|] eqn:Ht; try (injection He as <-; lia).
    pose proof (Permutation_length (take1_perm _ _ _ _ Ht)) as Hp. injection He as <-; simpl in *; rewrite ?app_length; simpl; lia.
  - destruct (take1 (CVar t x) (ptrs s)) as [[q l]|] eqn:Ht; try (injection He as <-; lia).
    pose proof (Permutation_length (take1_perm _ _ _ _ Ht)) as Hp.
    pose proof (release_work _ _ _ _ He) as H3. apply release_same in He as [H1 H2]. rewrite H1, H2. simpl in *. lia.
  - destruct (open s c); [|done]. destruct (pick c o (ptrs s)) as [l|] eqn:Ht; [|injection He as <-; lia].
    pose proof (Permutation_length (pick_perm _ _ _ _ Ht)) as Hp.
    pose proof (release_work _ _ _ _ He) as H3. apply release_same in He as [H1 H2]. rewrite H1, H2. simpl in *. lia.
  - destruct (open s _); [|done]. destruct (take1 (CIn p) (ptrs s)) as [[q l]|] eqn:Ht; try (injection He as <-; lia).
    pose proof (Permutation_length (take1_perm _ _ _ _ Ht)) as Hp.
    pose proof (release_work _ _ _ _ He) as H3. apply release_same in He as [H1 H2]. rewrite H1, H2. simpl in *.
    rewrite bool_decide_eq_true_2 by done. change (sum (weight <$> IDrain p :: prog s t)) with (1 + sum (weight <$> prog s t))%nat. lia.
  - destruct (take1 (CVar t x) (ptrs s)) as [[[o|] l]|] eqn:Ht; try (injection He as <-; lia).
    pose proof (Permutation_length (take1_perm _ _ _ _ Ht)) as Hp.
    destruct (heap s !! o) as [b|]; [|done]. case_match.
    + destruct (open s _); [|done]. injection He as <-. simpl in *. rewrite app_length. simpl. lia.
    + injection He as <-. lia.
  - repeat case_match; try done; injection He as <-; simpl; lia.
Qed.
Lemma destroy_work s t o p d s' : current t (dying s) = Some (o, p, d) -> destroy s t o p d = Ok s' ->
  (5 * length (ptrs s') + dw (dying s') < 5 * length (ptrs s) + dw (dying s))%nat.
Proof.
  intros Hc Hd. assert (Hw : dw (dying s) = (rest p + dw d)%nat).
  { unfold dw. apply current_perm in Hc. rewrite (sum_perm _ _ (fmap_Permutation (fun x => rest x.2) _ _ Hc)). done. }
  destruct p; simpl in Hd.
  - destruct (take1 (CIn o) (ptrs s)) as [[q l]|] eqn:Ht.
    + pose proof (Permutation_length (take1_perm _ _ _ _ Ht)) as Hp. pose proof (release_work _ _ _ _ Hd) as H3. apply release_same in Hd as [H1 _].
      rewrite H1. cbn [dying ptrs] in *. rewrite ?dw_cons in *. simpl in *. lia.
    + injection Hd as <-. cbn [dying ptrs] in *. rewrite ?dw_cons in *. simpl in *. lia.
  - destruct (due s o) as [[[m q] l]|] eqn:Hdue.
    + destruct (due_sound _ _ _ _ _ Hdue) as (b & bm & _ & _ & Ht & Hbm & _ & _). rewrite Hbm in Hd. case_match; [|done]. injection Hd as <-.
      pose proof (Permutation_length (take1_perm _ _ _ _ Ht)) as Hp. cbn [dying ptrs set_route] in *. rewrite ?dw_cons, app_length in *. simpl in *. lia.
    + injection Hd as <-. cbn [dying ptrs] in *. rewrite ?dw_cons in *. simpl in *. lia.
  - destruct (member o (ptrs s)) as [[q l]|] eqn:Ht.
    + destruct (member_perm _ _ _ _ Ht) as (c & _ & Hl). pose proof (Permutation_length Hl) as Hp. pose proof (release_work _ _ _ _ Hd) as H3. apply release_same in Hd as [H1 _].
      rewrite H1. cbn [dying ptrs] in *. rewrite ?dw_cons in *. simpl in *. lia.
    + injection Hd as <-. cbn [dying ptrs] in *. rewrite ?dw_cons in *. simpl in *. lia.
  - injection Hd as <-. cbn [dying ptrs] in *. rewrite ?dw_cons in *. simpl in *. lia.
Qed.

Lemma sum_map (f : N -> nat) u ts : sum (f <$> u :: ts) = (f u + sum (f <$> ts))%nat.
Proof. done. Qed.
Lemma sum_one (f g : N -> nat) t ts : NoDup ts -> t ∈ ts -> (forall u, u <> t -> g u = f u) ->
  (sum (g <$> ts) + f t = sum (f <$> ts) + g t)%nat.
Proof.
  intros Hnd Hin Hfg. induction Hnd as [|u ts Hu Hnd IH]; [by apply elem_of_nil in Hin|]. rewrite !sum_map. apply elem_of_cons in Hin as [->|Hin].
  - assert (sum (g <$> ts) = sum (f <$> ts)); [|lia]. clear IH. induction ts as [|v ts IH]; [done|]. rewrite !sum_map. apply not_elem_of_cons in Hu as [Hv Hu].
    rewrite Hfg by done. apply NoDup_cons in Hnd as [_ Hnd]. rewrite IH by done. done.
  - specialize (IH Hin). assert (u <> t) by (intros ->; done). rewrite Hfg by done. lia.
Qed.
Lemma step_work ts s o s' ev : MI s -> NoDup ts -> goes ts s o -> mstep s o = Ok (s', ev) -> (work ts s' < work ts s)%nat.
Proof.
  intros HM Hnd Hg Hs. destruct o as [|t]; [done|]. destruct Hg as [Hin Hb]. simpl in Hs. unfold work.
  fold (dw (dying s)) (dw (dying s')).
  destruct (current t (dying s)) as [[[o p] d]|] eqn:Hc.
  - destruct (destroy s t o p d) as [s1| |] eqn:Hd; cbn [rbind] in Hs; try done. injection Hs as <- <-.
    pose proof (destroy_work _ _ _ _ _ _ Hc Hd). destruct (destroy_same _ _ _ _ _ _ Hd) as [H1 _]. rewrite H1. lia.
  - destruct (prog s t) as [|i p] eqn:Hp; [by destruct Hb|].
    destruct (exec (set_prog s t p) t i) as [s1| |] eqn:He; cbn [rbind] in Hs; try done. injection Hs as <- <-.
    pose proof (mi_ok _ HM t) as Hot. rewrite Hp in Hot. simpl in Hot. apply andb_true_iff in Hot as [Hi _].
    pose proof (exec_work _ _ _ _ He Hi) as Hw. simpl in Hw. rewrite bool_decide_eq_true_2 in Hw by done.
    destruct (exec_tidy (set_prog s t p) _ _ _ (mi_solid _ HM) He Hi) as [_ _ _ Hpr].
    assert (Hoth : forall u, u <> t -> prog s1 u = prog s u).
    { intros u Hu. destruct Hpr as [Hpr|(q & _ & _ & Hpr)]; rewrite Hpr by done; simpl; by rewrite bool_decide_eq_false_2. }
    pose proof (sum_one (fun u => sum (weight <$> prog s u)) (fun u => sum (weight <$> prog s1 u)) t ts Hnd Hin) as Hsum.
    cbn beta in Hsum. rewrite Hp in Hsum. change (sum (weight <$> i :: p)) with (weight i + sum (weight <$> p))%nat in Hsum. specialize (Hsum ltac:(intros u Hu; by rewrite Hoth)). lia.
Qed.
Lemma ends ts ops : forall s s' ev, MI s -> NoDup ts -> guarded mstep (goes ts) s ops -> run mstep s ops = Ok (s', ev) ->
  (length ops + work ts s' <= work ts s)%nat.
Proof.
  induction ops as [|o ops IH]; intros s s' ev HM Hnd Hg Hr; simpl in *; [injection Hr as <- _; lia|].
  destruct Hg as [Hgo Hg]. destruct (mstep s o) as [[s1 e1]| |] eqn:Hs; simpl in Hr; try done.
  destruct (run mstep s1 ops) as [[s2 e2]| |] eqn:Hr2; simpl in Hr; try done. injection Hr as <- _.
  pose proof (step_work _ _ _ _ _ HM Hnd Hgo Hs). pose proof (IH _ _ _ (step_ok _ _ _ _ HM Hs) Hnd Hg Hr2). lia.
Qed.

(** ** Freed once *)
Record FR (s : mem) (ev : list mev) : Prop := {
  fr_mi : MI s;
  fr_nodup : NoDup (freed ev);
  fr_iff : forall o, o ∈ freed ev <-> o < next s /\ heap s !! o = None
}.
Lemma decr_dom s t o s' : decr s t o = Ok s' -> next s' = next s /\ forall p, is_Some (heap s' !! p) <-> is_Some (heap s !! p).
Proof.
  unfold decr. destruct (heap s !! o) as [b|] eqn:Hb; [|done]. case_match; [done|].
  assert (Hd : forall n p, is_Some (<[o:=Obj (o_kind b) n (o_route b)]> (heap s) !! p) <-> is_Some (heap s !! p)).
  { intros n p. destruct (decide (p = o)) as [->|Hp]; [rewrite lookup_insert, Hb; split; eauto | by rewrite lookup_insert_ne]. }
  case_match; intros [= <-]; simpl; auto.
Qed.
Lemma release_dom s t p s' : release s t p = Ok s' -> next s' = next s /\ forall p, is_Some (heap s' !! p) <-> is_Some (heap s !! p).
Proof. destruct p; simpl; [apply decr_dom | by intros [= <-]]. Qed.
Lemma copy_dom s o c s' : copy s o c = Ok s' -> next s' = next s /\ forall p, is_Some (heap s' !! p) <-> is_Some (heap s !! p).
Proof.
  unfold copy, incr. destruct (heap s !! o) as [b|] eqn:Hb; [|done]. case_match; [done|]. simpl. intros [= <-]. simpl. split; [done|].
  intros p. destruct (decide (p = o)) as [->|Hp]; [rewrite lookup_insert, Hb; split; eauto | by rewrite lookup_insert_ne].
Qed.
Lemma fill_dom n os : forall s s', fill s n os = Ok s' -> next s' = next s /\ forall p, is_Some (heap s' !! p) <-> is_Some (heap s !! p).
Proof.
  induction os as [|o os IH]; intros s s'; cbn [fill]; [by intros [= <-]|].
  destruct (copy s o (CField n FInner)) as [s1| |] eqn:Hc; cbn [rbind]; try done. intros Hf.
  apply copy_dom in Hc as [H1 H2]. apply IH in Hf as [H3 H4]. split; [congruence|]. intros p. by rewrite H4.
Qed.
Lemma exec_dom s t i s' : exec s t i = Ok s' -> ok_instr i = true ->
  (next s' = next s /\ forall p, is_Some (heap s' !! p) <-> is_Some (heap s !! p)) \/
  (next s' = next s + 1 /\ forall p, is_Some (heap s' !! p) <-> is_Some (heap s !! p) \/ p = next s).
Proof.
  intros He Hi.
  assert (Hal : forall k r c, (next (alloc s k r c) = next s + 1 /\ forall p, is_Some (heap (alloc s k r c) !! p) <-> is_Some (heap s !! p) \/ p = next s)).
  { intros k r c. simpl. split; [done|]. intros p. destruct (decide (p = next s)) as [->|Hp]; [rewrite lookup_insert; split; eauto|]. rewrite lookup_insert_ne by done. tauto. }
  destruct i as [x|x kd route inner|c x|c bk r|r x add|c bk|x c fr|x p|r p|p r|x|c o|p|x p|x rt]; cbn [exec] in *.
  - injection He as <-. right. apply Hal.
  - case_bool_decide; [done|]. destruct (loads s t inner) as [os| |] eqn:Hl; cbn [rbind] in He; try done.
    apply fill_dom in He as [H1 H2]. right. destruct (Hal kd route (CVar t x)) as [H3 H4]. split; [congruence|]. intros p. by rewrite H2, H4.
  - left. destruct (open s c); [|done]. destruct (first s c) as [o|]; [by eapply copy_dom | by injection He as <-].
  - left. repeat case_match; try done; by injection He as <-.
  - left. simpl in Hi. apply negb_true_iff in Hi as ->. repeat case_match; try done; by injection He as <-.
  - left. destruct (open s c); [|done]. destruct (take bk c (ptrs s)) as [[q l]|]; [by apply release_dom in He | by injection He as <-].
  - left. repeat case_match; try done; by injection He as <-.
  - left. repeat case_match; try done; by injection He as <-.
  - left. repeat case_match; try done; by injection He as <-.
  - left. repeat case_match; try done; by injection He as <-.
  - left. destruct (take1 (CVar t x) (ptrs s)) as [[q l]|]; [by apply release_dom in He | by injection He as <-].
  - left. destruct (open s c); [|done]. destruct (pick c o (ptrs s)) as [l|]; [by apply release_dom in He | by injection He as <-].
  - left. destruct (open s _); [|done]. destruct (take1 (CIn p) (ptrs s)) as [[q l]|]; [by apply release_dom in He | by injection He as <-].
  - left. destruct (take1 (CVar t x) (ptrs s)) as [[[o|] l]|]; try by injection He as <-.
    destruct (heap s !! o) as [b|] eqn:Hb; [|done]. case_match; [|by injection He as <-].
    destruct (open s _); [|done]. injection He as <-. simpl. split; [done|].
    intros q. destruct (decide (q = o)) as [->|Hp]; [rewrite lookup_insert, Hb; split; eauto | by rewrite lookup_insert_ne].
  - left. destruct (first s (CVar t x)) as [o|]; [|by injection He as <-]. destruct (heap s !! o) as [b|] eqn:Hb; [|done]. injection He as <-. simpl. split; [done|].
    intros q. destruct (decide (q = o)) as [->|Hp]; [rewrite lookup_insert, Hb; split; eauto | by rewrite lookup_insert_ne].
Qed.
Lemma step_FR s ev o s' e : FR s ev -> mstep s o = Ok (s', e) -> FR s' (ev ++ e).
Proof.
  intros [HM Hnd Hiff] Hs. pose proof (step_ok _ _ _ _ HM Hs) as HM'.
  assert (Hsame : e = [] -> next s' = next s -> (forall p, is_Some (heap s' !! p) <-> is_Some (heap s !! p)) -> FR s' (ev ++ e)).
  { intros -> Hn Hh. rewrite app_nil_r. split; [done|done|]. intros p. rewrite Hiff, Hn, !eq_None_not_Some, Hh. done. }
  destruct o as [t f|t]; simpl in Hs.
  - repeat case_match; try done; injection Hs as <- <-; by apply Hsame.
  - destruct (current t (dying s)) as [[[o p] d]|] eqn:Hc.
    + destruct (destroy s t o p d) as [s1| |] eqn:Hd; cbn [rbind] in Hs; try done. injection Hs as <- <-.
      assert (Hin : o ∈ ids (dying s)). { apply elem_of_list_fmap. exists (t, o, p). split; [done|]. rewrite (current_perm _ _ _ _ _ Hc). by left. }
      apply (j_die _ _ _ _ (mi_js _ HM)) in Hin as (b & Hb & _). rewrite Hb in Hsame |- *.
      destruct p; simpl in Hd.
      * destruct (take1 (CIn o) (ptrs s)) as [[q l]|]; [apply release_dom in Hd as [H1 H2]; by apply Hsame | injection Hd as <-; by apply Hsame].
      * destruct (due s o) as [[[m q] l]|] eqn:Hdue; [|injection Hd as <-; by apply Hsame].
        destruct (due_sound _ _ _ _ _ Hdue) as (b' & bm & _ & _ & Ht & Hbm & _ & _). rewrite Hbm in Hd. destruct (usable s q); [|done]. injection Hd as <-.
        apply Hsame; [done | done |]. intros p. simpl. destruct (decide (p = m)) as [->|Hpm]; [rewrite lookup_insert, Hbm; split; eauto | by rewrite lookup_insert_ne].
      * destruct (member o (ptrs s)) as [[q l]|]; [apply release_dom in Hd as [H1 H2]; by apply Hsame | injection Hd as <-; by apply Hsame].
      * injection Hd as <-. rewrite bool_decide_eq_true_2 by done.
        assert (Ho : o < next s) by (apply (j_next _ _ _ _ (mi_js _ HM)); eauto).
        assert (Hev : freed (ev ++ [VFreed o (o_route b)]) = freed ev ++ [o]) by (unfold freed; by rewrite fmap_app).
        split; [done | |].
        -- rewrite Hev. apply NoDup_app. split; [done|]. split; [|apply NoDup_singleton]. intros x Hx Hx2. apply elem_of_list_singleton in Hx2 as ->.
           apply Hiff in Hx as [_ Hx]. congruence.
        -- intros p. rewrite Hev, elem_of_app, Hiff, elem_of_list_singleton. simpl. destruct (decide (p = o)) as [->|Hp].
           ++ rewrite lookup_delete. split; [done|]. by right.
           ++ rewrite lookup_delete_ne by done. split; [intros [?|?]; done | by left].
    + destruct (prog s t) as [|i p] eqn:Hp; [injection Hs as <- <-; by apply Hsame|].
      destruct (exec (set_prog s t p) t i) as [s1| |] eqn:He; cbn [rbind] in Hs; try done. injection Hs as <- <-.
      pose proof (mi_ok _ HM t) as Hot. rewrite Hp in Hot. simpl in Hot. apply andb_true_iff in Hot as [Hi _].
      destruct (exec_dom _ _ _ _ He Hi) as [[H1 H2]|[H1 H2]]; simpl in H1, H2; [by apply Hsame|].
      rewrite app_nil_r. split; [done|done|]. intros q. rewrite Hiff, H1, !eq_None_not_Some, H2.
      split; [intros [Hq Hn]; split; [lia|]; intros [?|?]; [done|lia] | intros [Hq Hn]; split; [|tauto]].
      assert (q <> next s) by tauto. lia.
Qed.
Lemma guarded_true {S O E} (step : S -> O -> res (S * list E)) ops : forall s, guarded step (fun _ _ => True) s ops.
Proof. induction ops as [|o ops IH]; intros s; simpl; [done|]. split; [done|]. by destruct (step s o) as [[]| |]. Qed.
Lemma run_FR ops s ev : run mstep minit ops = Ok (s, ev) -> FR s ev.
Proof.
  intros Hr. apply (run_inv_ev mstep (fun _ _ => True) FR) with (ops := ops) (s := minit) (ev := []); [| | |done].
  - intros s1 ev1 o s2 e HF _. by apply step_FR.
  - split; [apply MI_init | apply NoDup_nil_2 |]. intros o. simpl. split; [intros Ho; by apply elem_of_nil in Ho | lia].
  - apply guarded_true.
Qed.
