(** Proofs for C69. *)
From stdpp Require Import base list gmap.
From Verif Require Import Base IterModel IterSpec.
Open Scope N_scope.

Definition vwf (v : vec) (f : N) : Prop := (v_size v <= cap v)%nat /\ v_buf v < f.
Definition WF (s : istate) : Prop := forall key v, i_map s !! key = Some v -> vwf v (i_fresh s).
Lemma WF_init : WF iinit.
Proof. intros key v H. cbn in H. by rewrite lookup_empty in H. Qed.

Lemma size_contents v : (v_size v <= cap v)%nat -> length (contents v) = v_size v.
Proof. intros H. unfold contents. rewrite take_length. unfold cap in H. lia. Qed.
Lemma grow_more n : (n < grow n)%nat.
Proof. unfold grow. case_decide; lia. Qed.

(** What happened to the vector of the key. *)
Definition R (v : vec) (f : N) (v' : vec) (f' : N) (new : list N) : Prop :=
  contents v' = contents v ++ new /\ f <= f' /\ vwf v' f' /\
  ((v_size v + length new <= cap v)%nat /\ v_buf v' = v_buf v /\ cap v' = cap v \/ (cap v < v_size v + length new)%nat /\ f <= v_buf v').
Lemma R_refl v f f' : vwf v f -> f <= f' -> R v f v f' [].
Proof. intros [H1 H2] Hf. split; [by rewrite app_nil_r|]. split; [done|]. split; [split; [done|lia]|]. left. cbn. split; [lia|done]. Qed.
Lemma R_trans v f v1 f1 n1 v2 f2 n2 : vwf v f -> R v f v1 f1 n1 -> R v1 f1 v2 f2 n2 -> R v f v2 f2 (n1 ++ n2).
Proof.
  intros Hv (A1 & A2 & A3 & A4) (B1 & B2 & B3 & B4). split; [by rewrite B1, A1, app_assoc|]. split; [lia|]. split; [done|].
  assert (E : v_size v1 = (v_size v + length n1)%nat). { rewrite <- (size_contents v1) by apply A3. rewrite A1, app_length, size_contents by apply Hv. done. }
  rewrite app_length. destruct A4 as [(X1 & X2 & X3)|[X1 X2]]; destruct B4 as [(Y1 & Y2 & Y3)|[Y1 Y2]].
  - left. split; [lia|]. split; congruence.
  - right. split; [lia|lia].
  - right. split; [lia|]. rewrite Y2. done.
  - right. split; [lia|lia].
Qed.
Lemma push_R v f h : vwf v f -> R v f (push v f h).1 (push v f h).2 [h].
Proof.
  intros [H1 H2]. unfold push. case_decide as Hd; cbn.
  - split.
    + unfold contents; cbn. rewrite <- (take_drop_middle (<[v_size v:=h]> (v_slots v)) (v_size v) h) by (apply list_lookup_insert; exact Hd).
      rewrite take_insert by lia. rewrite take_app_ge by (rewrite take_length; unfold cap in *; lia). f_equal. rewrite take_length. replace (S (v_size v) - v_size v `min` length (v_slots v))%nat with 1%nat by (unfold cap in *; lia). done.
    + split; [lia|]. unfold cap in *. split; [split; cbn; [unfold cap; cbn; rewrite insert_length; lia|done]|]. left. unfold cap; cbn. rewrite insert_length. split; [lia|done].
  - assert (Hs : v_size v = cap v) by lia. pose proof (grow_more (cap v)). split.
    + unfold contents at 1; cbn. rewrite take_app_ge by (rewrite size_contents; lia). rewrite size_contents by lia. replace (S (v_size v) - v_size v)%nat with 1%nat by lia. done.
    + split; [lia|]. split; [split; unfold cap; cbn; [|lia]|].
      * rewrite app_length, size_contents by lia. cbn. rewrite repeat_length. unfold cap in *. lia.
      * right. cbn. split; [lia|lia].
Qed.

(** One effect, and lists of them. *)
Lemma push_fresh v f h : f <= (push v f h).2.
Proof. unfold push. case_decide; cbn; lia. Qed.
Lemma vwf_mono v f f' : vwf v f -> f <= f' -> vwf v f'.
Proof. intros [? ?] ?. split; [done|lia]. Qed.
Lemma subscribe_WF s key h : WF s -> WF (subscribe s key h).
Proof.
  intros HW. unfold subscribe. destruct (i_map s !! key) as [v|] eqn:E.
  - pose proof (push_R v (i_fresh s) h (HW _ _ E)) as (_ & Hf & Hv & _). destruct (push v (i_fresh s) h) as [v' f]. cbn in *. intros k w Hw. cbn in *.
    destruct (decide (k = key)) as [->|Hk]; [rewrite lookup_insert in Hw; injection Hw as <-; done|]. rewrite lookup_insert_ne in Hw by done. eapply vwf_mono; [by eapply HW|done].
  - assert (H0 : vwf (Vec (i_fresh s) [] 0) (i_fresh s + 1)) by (split; cbn; [unfold cap; cbn; lia|lia]).
    pose proof (push_R _ (i_fresh s + 1) h H0) as (_ & Hf & Hv & _). cbn. destruct (push _ (i_fresh s + 1) h) as [v' f]. cbn in *. intros k w Hw. cbn in *.
    destruct (decide (k = key)) as [->|Hk]; [rewrite lookup_insert in Hw; injection Hw as <-; done|]. rewrite lookup_insert_ne in Hw by done. eapply vwf_mono; [by eapply HW|lia].
Qed.
Lemma subscribe_here s key k h v : WF s -> i_map s !! key = Some v -> exists v', i_map (subscribe s k h) !! key = Some v' /\ R v (i_fresh s) v' (i_fresh (subscribe s k h)) (if decide (k = key) then [h] else []).
Proof.
  intros HW Hv. unfold subscribe. destruct (decide (k = key)) as [->|Hk].
  - rewrite Hv. pose proof (push_R v (i_fresh s) h (HW _ _ Hv)) as H. destruct (push v (i_fresh s) h) as [v' f]. cbn in *. exists v'. by rewrite lookup_insert.
  - destruct (i_map s !! k) as [w|] eqn:Ew.
    + pose proof (push_fresh w (i_fresh s) h) as H. destruct (push w (i_fresh s) h) as [v' f]. cbn in *. exists v. rewrite lookup_insert_ne by done. split; [done|]. apply R_refl; [by eapply HW|done].
    + cbn. pose proof (push_fresh (Vec (i_fresh s) [] 0) (i_fresh s + 1) h) as H. destruct (push _ (i_fresh s + 1) h) as [v' f]. cbn in *. exists v. rewrite lookup_insert_ne by done. split; [done|]. apply R_refl; [by eapply HW|lia].
Qed.
Lemma drop_at_size v p : (p < v_size v)%nat -> (v_size v <= cap v)%nat -> cap (drop_at v p) = cap v.
Proof. intros H1 H2. unfold drop_at, cap, contents in *; cbn. rewrite !app_length, !take_length, !drop_length, take_length. lia. Qed.
Lemma position_lt h l p : position h l = Some p -> (p < length l)%nat /\ l !! p = Some h.
Proof.
  unfold position. destruct (list_find (eq h) l) as [[q x]|] eqn:E; cbn; [|done]. intros [= <-]. apply list_find_Some in E as (E1 & E2 & _). subst x. split; [by eapply lookup_lt_Some|done].
Qed.
Lemma forget_WF s key h s' : WF s -> forget s key h = Ok s' -> WF s' /\ i_fresh s' = i_fresh s.
Proof.
  intros HW. unfold forget. destruct (i_map s !! key) as [v|] eqn:E; [|done]. destruct (position h (contents v)) as [p|] eqn:Ep; [|done]. intros [= <-]. split; [|done]. cbn.
  destruct (HW _ _ E) as [H1 H2]. apply position_lt in Ep as [Hp _]. rewrite size_contents in Hp by done.
  assert (Hd : vwf (drop_at v p) (i_fresh s)) by (split; [rewrite drop_at_size by done; cbn; lia|done]).
  intros k w. cbn. case_decide; [intros [_ Hw]%lookup_delete_Some; by eapply HW|]. intros [[<- <-]|[_ Hw]]%lookup_insert_Some; [done|by eapply HW].
Qed.
Lemma forget_other s key k h s' : k <> key -> forget s k h = Ok s' -> i_map s' !! key = i_map s !! key.
Proof.
  intros Hk. unfold forget. destruct (i_map s !! k) as [v|]; [|done]. destruct (position h (contents v)) as [p|]; [|done]. intros [= <-]. cbn. case_decide; [by rewrite lookup_delete_ne|by rewrite lookup_insert_ne].
Qed.
Lemma effects_WF l s s' : WF s -> effects s l = Ok s' -> WF s'.
Proof.
  revert s. induction l as [|[k h|k h] l IH]; intros s HW; cbn.
  - by intros [= <-].
  - apply IH. by apply subscribe_WF.
  - destruct (forget s k h) as [s1| |] eqn:E; try done. cbn. apply IH. by eapply forget_WF.
Qed.
Lemma effects_here l s s' key v : WF s -> i_map s !! key = Some v -> ~ forgets_here key l -> effects s l = Ok s' ->
  exists v', i_map s' !! key = Some v' /\ R v (i_fresh s) v' (i_fresh s') (new_here key l).
Proof.
  revert s v. induction l as [|[k h|k h] l IH]; intros s v HW Hv Hf; cbn.
  - intros [= <-]. exists v. split; [done|]. apply R_refl; [by eapply HW|lia].
  - intros He. destruct (subscribe_here s key k h v HW Hv) as (v1 & Hv1 & HR1).
    destruct (IH (subscribe s k h) v1) as (v2 & Hv2 & HR2); [by apply subscribe_WF|done| |done|].
    { intros [x Hx]. apply Hf. exists x. by right. }
    exists v2. split; [done|]. pose proof (R_trans _ _ _ _ _ _ _ _ (HW _ _ Hv) HR1 HR2) as HR. cbn. by case_decide.
  - destruct (forget s k h) as [s1| |] eqn:E; try done. cbn. intros He.
    assert (Hk : k <> key) by (intros ->; apply Hf; exists h; left).
    destruct (forget_WF _ _ _ _ HW E) as [HW1 Hfr].
    destruct (IH s1 v) as (v2 & Hv2 & HR2); [done|by rewrite (forget_other s key k h s1)| |done|].
    { intros [x Hx]. apply Hf. exists x. by right. }
    exists v2. split; [done|]. by rewrite <- Hfr.
Qed.
Lemma effects_subs l s : (forall k h, EForget k h ∉ l) -> exists s', effects s l = Ok s'.
Proof.
  revert s. induction l as [|[k h|k h] l IH]; intros s Hf; cbn.
  - eauto.
  - apply IH. intros k' h' Hx. apply (Hf k' h'). by right.
  - exfalso. apply (Hf k h). left.
Qed.

(** The loop. *)
Section loop.
Context (strict : bool) (does : nat -> list ieff) (key : N).
Definition watched (n : nat) : nat := if strict then n else (n - 1)%nat.
Definition fits (n i : nat) (v : vec) : Prop := (v_size v + length (new_by does key (watched n) i) <= cap v)%nat.
Lemma slot_contents v i : (i < v_size v)%nat -> v_slots v !! i = contents v !! i.
Proof. intros H. unfold contents. by rewrite lookup_take. Qed.
Lemma loop_spec n i s v s' ev : WF s -> i_map s !! key = Some v -> (i + n <= v_size v)%nat -> (forall j, ~ forgets_here key (does j)) ->
  loop strict does key n i (v_buf v) s = Ok (s', ev) ->
  ev = ECall <$> take n (drop i (contents v)) /\ exists v', i_map s' !! key = Some v' /\ contents v' = contents v ++ new_by does key n i /\ WF s' /\ (n <> 0%nat -> fits n i v).
Proof.
  revert i s v s' ev. induction n as [|n IH]; intros i s v s' ev HW Hv Hn Hf; cbn.
  - intros [= <- <-]. split; [done|]. exists v. split; [done|]. split; [by rewrite app_nil_r|]. split; [done|]. done.
  - rewrite Hv, bool_decide_true by done. pose proof (HW _ _ Hv) as [Hsz Hb]. destruct (v_slots v !! i) as [h|] eqn:Eh; [|done]. rewrite slot_contents in Eh by lia.
    destruct (effects s (does i)) as [s1| |] eqn:E1; try done. cbn [rbind].
    destruct (effects_here _ _ _ _ _ HW Hv (Hf i) E1) as (v1 & Hv1 & HR). pose proof HR as (A1 & A2 & A3 & A4).
    pose proof (effects_WF _ _ _ HW E1) as HW1.
    destruct (strict && negb (valid key s1 (v_buf v))) eqn:Es; [done|].
    destruct (loop strict does key n (S i) (v_buf v) s1) as [[s2 e2]| |] eqn:E2; try done. cbn [rbind]. intros [= <- <-].
    assert (Hsame : (n <> 0%nat \/ strict = true) -> v_buf v1 = v_buf v).
    { intros [Hn0|Hst].
      - destruct n as [|n']; [done|]. cbn in E2. rewrite Hv1 in E2. case_bool_decide as Hbb; [done|done].
      - rewrite Hst in Es. cbn in Es. apply negb_false_iff in Es. unfold valid in Es. rewrite Hv1 in Es. by apply bool_decide_eq_true in Es. }
    assert (Hsz1 : v_size v1 = (v_size v + length (new_here key (does i)))%nat). { rewrite <- (size_contents v1) by apply A3. rewrite A1, app_length, size_contents by done. done. }
    assert (Hfit : v_buf v1 = v_buf v -> (v_size v + length (new_here key (does i)) <= cap v)%nat /\ cap v1 = cap v).
    { intros E. destruct A4 as [(X1 & X2 & X3)|[X1 X2]]; [done|]. exfalso. lia. }
    assert (Hev : forall n' : nat, n' = n -> v_buf v1 = v_buf v -> e2 = ECall <$> take n (drop (S i) (contents v1)) /\ exists v', i_map s2 !! key = Some v' /\ contents v' = contents v1 ++ new_by does key n (S i) /\ WF s2 /\ (n <> 0%nat -> fits n (S i) v1)).
    { intros _ _ Hbb. apply (IH (S i) s1 v1); try done; [lia|]. by rewrite Hbb. }
    rewrite (drop_S _ h) by done. cbn [take fmap list_fmap].
    destruct (decide (n = 0%nat)) as [->|Hn0].
    + cbn in E2. injection E2 as <- <-. split; [done|]. exists v1. split; [done|]. cbn. rewrite app_nil_r. split; [done|]. split; [done|]. intros _. unfold fits, watched. destruct strict eqn:Est.
      * destruct Hfit as [? _]; [apply Hsame; by right|]. cbn. rewrite app_nil_r. done.
      * cbn. lia.
    + assert (Hb1 : v_buf v1 = v_buf v) by (apply Hsame; by left). destruct (Hfit Hb1) as [Hc1 Hc2]. destruct (Hev n eq_refl Hb1) as (X1 & v' & X2 & X3 & X4 & X5). split.
      * rewrite X1, A1. f_equal. f_equal. rewrite drop_app_le by (rewrite size_contents by done; lia). rewrite take_app_le; [done|]. rewrite drop_length, size_contents by done. lia.
      * exists v'. split; [done|]. split; [by rewrite X3, A1, app_assoc|]. split; [done|]. intros _. specialize (X5 Hn0). unfold fits in *. rewrite Hsz1, Hc2 in X5.
        assert (W : watched (S n) = S (watched n)) by (unfold watched; destruct strict; lia). rewrite W. cbn. rewrite app_length. lia.
Qed.
Lemma loop_ok n i s v : WF s -> i_map s !! key = Some v -> (i + n <= v_size v)%nat -> (forall j k h, EForget k h ∉ does j) ->
  (n <> 0%nat -> fits n i v) -> exists s' ev, loop strict does key n i (v_buf v) s = Ok (s', ev).
Proof.
  revert i s v. induction n as [|n IH]; intros i s v HW Hv Hn Hf Hfit; cbn; [eauto|].
  pose proof (HW _ _ Hv) as [Hsz Hb]. rewrite Hv, bool_decide_true by done. destruct (v_slots v !! i) as [h|] eqn:Eh; [|apply lookup_ge_None in Eh; unfold cap in Hsz; lia].
  destruct (effects_subs (does i) s) as [s1 E1]; [apply Hf|]. rewrite E1. cbn [rbind].
  destruct (effects_here _ _ _ _ _ HW Hv (fun '(ex_intro _ x Hx) => Hf i key x Hx) E1) as (v1 & Hv1 & HR). pose proof HR as (A1 & A2 & A3 & A4).
  pose proof (effects_WF _ _ _ HW E1) as HW1. specialize (Hfit (Nat.neq_succ_0 n)). unfold fits in Hfit.
  assert (Hsz1 : v_size v1 = (v_size v + length (new_here key (does i)))%nat). { rewrite <- (size_contents v1) by apply A3. rewrite A1, app_length, size_contents by done. done. }
  assert (Hsame : (n <> 0%nat \/ strict = true) -> v_buf v1 = v_buf v /\ cap v1 = cap v /\ (v_size v + length (new_here key (does i)) + length (new_by does key (watched n) (S i)) <= cap v)%nat).
  { intros Hx. assert (W : watched (S n) = S (watched n)) by (unfold watched; destruct strict; [done|]; destruct Hx; [lia|done]). rewrite W in Hfit. cbn in Hfit. rewrite app_length in Hfit.
    destruct A4 as [(X1 & X2 & X3)|[X1 X2]]; [|lia]. split; [done|]. split; [done|lia]. }
  assert (Es : strict && negb (valid key s1 (v_buf v)) = false).
  { destruct strict eqn:Est; [|done]. cbn. apply negb_false_iff. unfold valid. rewrite Hv1. apply bool_decide_eq_true. by apply Hsame; right. }
  rewrite Es. destruct (decide (n = 0%nat)) as [->|Hn0]; [cbn; eauto|]. destruct (Hsame (or_introl Hn0)) as (B1 & B2 & B3).
  destruct (IH (S i) s1 v1) as (s2 & e2 & E2); try done; [lia|intros _; unfold fits; lia|]. rewrite <- B1, E2. cbn. eauto.
Qed.
Lemma loop_crash n i s v : WF s -> i_map s !! key = Some v -> (i + n <= v_size v)%nat -> (forall j k h, EForget k h ∉ does j) ->
  n <> 0%nat -> ~ fits n i v -> loop strict does key n i (v_buf v) s = Crash.
Proof.
  intros HW Hv Hn Hf Hn0 Hfit. destruct (loop strict does key n i (v_buf v) s) as [[s' ev]| |] eqn:E; [| |done].
  - exfalso. apply Hfit. destruct (loop_spec _ _ _ _ _ _ HW Hv Hn (fun j '(ex_intro _ x Hx) => Hf j key x Hx) E) as (_ & v' & _ & _ & _ & H). by apply H.
  - exfalso. clear Hfit Hn0. revert i s v HW Hv Hn E. induction n as [|n IH]; intros i s v HW Hv Hn; cbn; [done|].
    pose proof (HW _ _ Hv) as [Hsz Hb]. rewrite Hv, bool_decide_true by done. destruct (v_slots v !! i) as [h|]; [|done]. destruct (effects_subs (does i) s) as [s1 E1]; [apply Hf|]. rewrite E1. cbn [rbind].
    destruct (effects_here _ _ _ _ _ HW Hv (fun '(ex_intro _ x Hx) => Hf i key x Hx) E1) as (v1 & Hv1 & HR). pose proof HR as (A1 & A2 & A3 & A4).
    pose proof (effects_WF _ _ _ HW E1) as HW1. destruct (strict && negb (valid key s1 (v_buf v))); [done|].
    assert (Hsz1 : v_size v1 = (v_size v + length (new_here key (does i)))%nat). { rewrite <- (size_contents v1) by apply A3. rewrite A1, app_length, size_contents by done. done. }
    destruct (loop strict does key n (S i) (v_buf v) s1) as [[s2 e2]| |] eqn:E2; try done. intros _.
    destruct (decide (v_buf v1 = v_buf v)) as [Hbb|Hbb].
    + apply (IH (S i) s1 v1); try done; [lia|]. by rewrite Hbb.
    + destruct n; [done|]. cbn in E2. rewrite Hv1, bool_decide_false in E2 by done. done.
Qed.
End loop.

(** Calls which do nothing; a call which forgets one handler. *)
Lemma loop_app strict does key n1 n2 i buf s : loop strict does key (n1 + n2) i buf s =
  rbind (loop strict does key n1 i buf s) (fun '(s1, e1) => rbind (loop strict does key n2 (i + n1) buf s1) (fun '(s2, e2) => Ok (s2, e1 ++ e2))).
Proof.
  revert i s. induction n1 as [|n1 IH]; intros i s; cbn.
  - rewrite Nat.add_0_r. by destruct (loop strict does key n2 i buf s) as [[? ?]| |].
  - destruct (i_map s !! key) as [v|]; [|done]. case_bool_decide; [|done]. destruct (v_slots v !! i); [|done]. destruct (effects s (does i)) as [s1| |]; try done. cbn. destruct (strict && _); [done|].
    rewrite IH. destruct (loop strict does key n1 (S i) buf s1) as [[s2 e2]| |]; try done. cbn. replace (i + S n1)%nat with (S i + n1)%nat by lia. cbn. by destruct (loop strict does key n2 (S (i + n1)) buf s2) as [[? ?]| |].
Qed.
Lemma loop_quiet strict does key n i s v : i_map s !! key = Some v -> (forall m, (i <= m < i + n)%nat -> does m = []) -> (i + n <= cap v)%nat ->
  loop strict does key n i (v_buf v) s = Ok (s, ECall <$> take n (drop i (v_slots v))).
Proof.
  intros Hv. revert i. induction n as [|n IH]; intros i Hd Hc; cbn; [done|].
  rewrite Hv, bool_decide_true by done. destruct (v_slots v !! i) as [h|] eqn:Eh; [|apply lookup_ge_None in Eh; unfold cap in Hc; lia].
  rewrite Hd by lia. cbn. unfold valid. rewrite Hv, bool_decide_true by done. cbn. rewrite andb_false_r. rewrite IH; [|intros m Hm; apply Hd; lia|lia]. cbn. by rewrite (drop_S _ h i).
Qed.
Lemma take_contents v n : (n <= v_size v)%nat -> take n (v_slots v) = take n (contents v).
Proof. intros H. unfold contents. rewrite take_take. f_equal. lia. Qed.
Lemma erased_slots v j : (v_size v <= cap v)%nat -> (j < v_size v)%nat ->
  take (v_size v) (v_slots (drop_at v j)) = take j (contents v) ++ drop (S j) (contents v) ++ drop (v_size v - 1) (contents v).
Proof.
  intros H1 Hj. unfold drop_at; cbn. rewrite take_contents by lia. unfold cap in H1.
  assert (El : length (contents v) = v_size v) by (by apply size_contents).
  rewrite !take_app_ge by (rewrite ?take_length, ?drop_length; lia). f_equal. f_equal. rewrite take_length, drop_length, El.
  unfold contents. rewrite skipn_firstn_comm. f_equal. lia.
Qed.
Lemma erased_contents v j : (v_size v <= cap v)%nat -> (j < v_size v)%nat -> contents (drop_at v j) = take j (contents v) ++ drop (S j) (contents v).
Proof.
  intros H1 Hj. assert (El : length (contents v) = v_size v) by (by apply size_contents). unfold contents at 1. cbn. rewrite (take_contents v j) by lia.
  rewrite take_app_ge by (rewrite take_length; lia). f_equal. rewrite take_length, El. rewrite take_app_alt by (rewrite drop_length; lia). done.
Qed.
Lemma deliver_erased does key s h i j : WF s -> position h (handlers s key) = Some j -> (i < length (handlers s key))%nat ->
  does i = [EForget key h] -> (forall m, m <> i -> does m = []) ->
  let l := handlers s key in
  exists s', deliver false does key s = Ok (s', ECall <$> take (S i) l ++ drop (S i) (take j l ++ drop (S j) l ++ drop (length l - 1) l)) /\ handlers s' key = take j l ++ drop (S j) l.
Proof.
  intros HW Hp Hi Hd1 Hd2 l. subst l. unfold handlers in *. unfold deliver. destruct (i_map s !! key) as [v|] eqn:Hv; [|done]. destruct (HW _ _ Hv) as [Hsz Hb]. pose proof (size_contents v Hsz) as El.
  pose proof (position_lt _ _ _ Hp) as [Hj _]. rewrite El in *. replace (loop false does key (v_size v) 0 (v_buf v) s) with (loop false does key (i + (1 + (v_size v - S i))) 0 (v_buf v) s) by (f_equal; lia).
  rewrite loop_app, (loop_quiet _ _ _ i 0 s v Hv) by (try (intros m Hm; apply Hd2; lia); lia). cbn [rbind drop]. rewrite loop_app. cbn [loop plus]. rewrite Hv, bool_decide_true by done.
  destruct (lookup_lt_is_Some_2 (contents v) i) as [x Hx]; [lia|]. rewrite slot_contents, Hx by lia. rewrite Hd1. cbn [effects]. unfold forget. rewrite Hv, Hp. cbn [rbind andb].
  assert (HT : take i (v_slots v) = take i (contents v)) by (apply take_contents; lia).
  case_decide as Hz; cbn in Hz.
  - assert (v_size v = 1%nat) by lia. assert (i = 0%nat) as -> by lia. assert (j = 0%nat) as -> by lia. replace (v_size v - 1)%nat with 0%nat by lia. cbn [loop rbind]. eexists.
    destruct (contents v) as [|y [|z r]]; cbn in *; try lia. injection Hx as ->. split; [reflexivity|]. cbn. by rewrite lookup_delete.
  - set (s1 := ISt _ _). assert (Hv1 : i_map s1 !! key = Some (drop_at v j)) by (cbn; by rewrite lookup_insert).
    change (v_buf v) with (v_buf (drop_at v j)). replace (0 + i + 1)%nat with (S i) by lia.
    rewrite (loop_quiet _ _ _ _ _ _ _ Hv1) by (try (intros m Hm; apply Hd2; lia); rewrite drop_at_size; lia). cbn [rbind]. exists s1. rewrite Hv1. split; [|by apply erased_contents].
    f_equal. f_equal. rewrite <- erased_slots by done. rewrite skipn_firstn_comm. rewrite drop_0, HT. replace (i + 1)%nat with (S i) by lia. rewrite (take_S_r _ _ x) by done. rewrite !fmap_app, <- !app_assoc. done.
Qed.

(** Summaries for the states which can be. *)
Lemma made_WF l s : made l s -> WF s.
Proof. apply effects_WF. apply WF_init. Qed.
Lemma deliver_ok does key strict l s s' ev : made l s -> (forall j, ~ forgets_here key (does j)) -> deliver strict does key s = Ok (s', ev) ->
  ev = ECall <$> handlers s key /\ handlers s' key = handlers s key ++ new_by does key (length (handlers s key)) 0.
Proof.
  intros HW%made_WF Hf. unfold deliver, handlers. destruct (i_map s !! key) as [v|] eqn:Hv.
  - intros E. destruct (HW _ _ Hv) as [Hsz _]. destruct (loop_spec _ _ _ (v_size v) 0 _ _ _ _ HW Hv (le_n (v_size v)) Hf E) as (E1 & v' & E2 & E3 & _). rewrite E2, E3. rewrite size_contents by done. split; [|done].
    rewrite E1, drop_0. rewrite take_ge; [done|]. by rewrite size_contents.
  - intros [= <- <-]. rewrite Hv. done.
Qed.
Lemma deliver_exact strict does key l s : made l s -> (forall j k h, EForget k h ∉ does j) ->
  (enough strict does key s -> exists s' ev, deliver strict does key s = Ok (s', ev)) /\ (~ enough strict does key s -> deliver strict does key s = Crash).
Proof.
  intros HW%made_WF Hf. unfold enough, handlers, room, deliver. destruct (i_map s !! key) as [v|] eqn:Hv.
  - destruct (HW _ _ Hv) as [Hsz _]. rewrite size_contents by done. split.
    + intros H. apply loop_ok; try done. intros Hn. unfold fits, watched. destruct H as [H|H]; [|done]. exfalso. apply Hn. by rewrite <- size_contents, H.
    + intros H. apply loop_crash; try done; [intros Hn; apply H; left; apply nil_length_inv; by rewrite size_contents|]. unfold fits, watched. intros Hx. apply H. by right.
  - split; [eauto|]. intros H. exfalso. apply H. by left.
Qed.
