(** C64: no message is free.  Every message which is taken from a queue lowers the
    measure, unless a child is born or the outside interferes. *)
From stdpp Require Import base list gmap fin_sets.
From Verif Require Import Base ChildMgrModel ChildMgrSpec ChildMgrProofs FamilyModel FlowSpec FlowInv.
Local Open Scope nat_scope.

Local Arguments wfam : simpl never.
Local Arguments wmsgs : simpl never.
Local Arguments wcm : simpl never.
Lemma wq_app l l' : sum_list_with wq (l ++ l') = sum_list_with wq l + sum_list_with wq l'.
Proof. apply sum_list_with_app. Qed.
Lemma push_cost s l : wmsgs (push s l) = wmsgs s + sum_list_with wq l.
Proof. unfold wmsgs, push. cbn. rewrite wq_app. lia. Qed.
Lemma up_get s c : match f_up s !! c with Some x => sum_list_with wup x | None => 0 end = sum_list_with wup (upl s c).
Proof. unfold upl. by destruct (f_up s !! c). Qed.
Lemma down_get s c : match f_down s !! c with Some x => sum_list_with wdown x | None => 0 end = sum_list_with wdown (downl s c).
Proof. unfold downl. by destruct (f_down s !! c). Qed.
Lemma from_cost s c l : wmsgs (from s c l) <= wmsgs s + sum_list_with wup l.
Proof.
  assert (Hl : sum_list_with wq l <= sum_list_with wup l) by (induction l as [|m l IH]; cbn [sum_list_with]; [lia|pose proof (eq_refl : wup m = S (wq m)); lia]).
  unfold from. case_decide; [|rewrite push_cost; lia]. unfold wmsgs. cbn.
  pose proof (msum_insert (fun _ => sum_list_with wup) (f_up s) c (upl s c ++ l)) as Hm. cbn in Hm. rewrite up_get, sum_list_with_app in Hm. lia.
Qed.
Lemma own_bye_cost s c : wmsgs (own s c [MBye c]) <= wmsgs s + (if decide (c ∈ f_foreign s) then 1 else 2).
Proof.
  unfold own. case_decide; [|rewrite push_cost; cbn; lia]. unfold wmsgs. cbn.
  pose proof (msum_insert (fun _ => sum_list_with wdown) (f_down s) c (downl s c ++ [MBye c])) as Hm. cbn in Hm. rewrite down_get, sum_list_with_app in Hm. cbn in Hm. lia.
Qed.
Lemma size_add (X : gset N) c : size (X ∪ {[c]}) <= S (size X).
Proof. pose proof (size_union_alt X {[c]}). assert (size ({[c]} ∖ X) <= size ({[c]} : gset N)) by (apply subseteq_size; set_solver). rewrite size_singleton in *. lia. Qed.
Lemma size_cap (X Y : gset N) : size (X ∩ Y) <= size X.
Proof. apply subseteq_size. set_solver. Qed.
Lemma size_sub (X : gset N) c : c ∈ X -> S (size (X ∖ {[c]})) <= size X.
Proof. intros Hc. pose proof (size_union_alt {[c]} X) as Hs. assert (HX : ({[c]} : gset N) ∪ X = X) by set_solver. rewrite HX, size_singleton in Hs. lia. Qed.

Ltac bds H := repeat match type of H with context [bool_decide (?a = AShuttingDown)] =>
  first [rewrite (bool_decide_eq_false_2 (a = AShuttingDown)) in H by done | rewrite (bool_decide_eq_true_2 (a = AShuttingDown)) in H by done] end; cbn in H.
Section proofs.
Context (hp : bool) (policy : spolicy) (sync : bool).
Notation fstep := (fstep hp policy sync).
Notation react := (react hp).
Notation manage := (manage hp policy sync).
Lemma react_cost fo ea s e left : (f_phase s = PLeft -> left = true) ->
  wmsgs (react fo ea s e) + aside hp e <= wmsgs s + price left e /\ f_cm (react fo ea s e) = f_cm s /\ f_bye (react fo ea s e) = f_bye s /\ (f_phase (react fo ea s e) = PLeft -> left = true).
Proof.
  intros Hl. assert (Hpush : forall s0 l, f_phase s0 = f_phase s -> f_cm s0 = f_cm s -> f_bye s0 = f_bye s -> f_cm (push s0 l) = f_cm s /\ f_bye (push s0 l) = f_bye s /\ (f_phase (push s0 l) = PLeft -> left = true)).
  { intros s0 l H1 H2 H3. cbn. rewrite H1, H2, H3. done. }
  assert (Hfrom : forall s0 c l, f_phase s0 = f_phase s -> f_cm s0 = f_cm s -> f_bye s0 = f_bye s -> f_cm (from s0 c l) = f_cm s /\ f_bye (from s0 c l) = f_bye s /\ f_phase (from s0 c l) = f_phase s).
  { intros s0 c l H1 H2 H3. unfold from. case_decide; cbn; by rewrite H1, H2, H3. }
  destruct e; cbn [react price aside]; try (split; [lia|done]).
  - set (s1 := if fo then set_foreign s _ else s).
    assert (E1 : f_phase s1 = f_phase s /\ f_cm s1 = f_cm s /\ f_bye s1 = f_bye s /\ wmsgs s1 = wmsgs s) by (unfold s1; by destruct fo).
    destruct E1 as (E1 & E2 & E3 & E4). destruct (Hfrom s1 c [MTrigger c]) as (F1 & F2 & F3); [done..|].
    pose proof (from_cost s1 c [MTrigger c]) as Hf. cbn in Hf. split; [rewrite push_cost; cbn; destruct ea; lia|]. destruct ea; by apply Hpush.
  - split; [rewrite push_cost; cbn; lia|by apply Hpush].
  - split; [rewrite push_cost|by apply Hpush]. unfold wmsgs. cbn. pose proof (size_add (f_init s) c). lia.
  - destruct hp; [split; [lia|done]|]. split; [rewrite push_cost; cbn; lia|by apply Hpush].
  - split; [rewrite push_cost|by apply Hpush]. unfold wmsgs. cbn. pose proof (size_add (f_shut s) c). lia.
  - destruct hp; [split; [lia|done]|]. split; [rewrite push_cost; cbn; lia|by apply Hpush].
  - split; [rewrite push_cost; cbn; lia|by apply Hpush].
  - destruct (Hfrom s c [MTrigger c]) as (F1 & F2 & F3); [done..|]. pose proof (from_cost s c [MTrigger c]) as Hf. cbn in Hf.
    split; [lia|]. rewrite F1, F2, F3. done.
  - destruct b; [|split; [lia|done]]. split; [|done]. unfold wmsgs. cbn. destruct (f_phase s); cbn; [lia..|]. rewrite Hl by done. lia.
Qed.
Lemma reacts_cost fo ea e s left : (f_phase s = PLeft -> left = true) ->
  wmsgs (foldl (react fo ea) s e) + asides hp e <= wmsgs s + prices left e /\ f_cm (foldl (react fo ea) s e) = f_cm s /\ f_bye (foldl (react fo ea) s e) = f_bye s.
Proof.
  revert s. induction e as [|x e IH]; intros s Hl; cbn [foldl]; [unfold prices; cbn; split; [lia|done]|]. change (asides hp (x :: e)) with (aside hp x + asides hp e).
  destruct (react_cost fo ea s x left Hl) as (H1 & H2 & H3 & H4). destruct (IH _ H4) as (G1 & G2 & G3).
  rewrite prices_cons, G2, G3, H2, H3. split; [lia|done].
Qed.
Lemma manage_cost fo ea s o s' e : cinv (f_cm s) -> match o with OChild _ _ => False | _ => True end -> (f_phase s = PLeft -> o <> OVoteShutdown) ->
  manage fo ea s o = Ok (s', e) -> asides hp e + wfam s' <= wfam s + allow o + 36 * births e /\ cinv (f_cm s').
Proof.
  intros Hv Ho Hp H. unfold FamilyModel.manage in H. destruct (cstep hp policy sync (f_cm s) o) as [[cm e0]| |] eqn:E; [|done..]. cbn in H. injection H as <- <-.
  set (left := bool_decide (f_phase s = PLeft)).
  destruct (reacts_cost fo ea e0 (set_cm s cm) left) as (H1 & H2 & H3); [intros Hx; by apply bool_decide_eq_true_2|].
  assert (Hc := cstep_cost hp policy sync (f_bye s) left _ _ _ _ Hv Ho ltac:(intros Hx; apply Hp; by apply bool_decide_eq_true_1 in Hx) E).
  unfold wfam in *. cbn [f_cm f_bye set_init set_cm] in *. rewrite H2, H3. split.
  - set (s1 := foldl _ _ _) in *. assert (wmsgs (FamilyModel.set_init s1 (f_init s1 ∩ cm_initout cm)) <= wmsgs s1) by (unfold wmsgs; cbn; pose proof (size_cap (f_init s1) (cm_initout cm)); lia).
    change (wmsgs (set_cm s cm)) with (wmsgs s) in H1. lia.
  - by eapply cinv_step.
Qed.

(** The children. *)
Lemma cinv_children s x : cinv s -> cinv (set_children s x).
Proof. intros [H1 H2 H3 H4 H5 H6 H7 H8 H9 H10 H11 H12 H13 H14 H15]. by split. Qed.
Lemma cinv_initout s x : cinv s -> cinv (set_initout s x).
Proof. intros [H1 H2 H3 H4 H5 H6 H7 H8 H9 H10 H11 H12 H13 H14 H15]. by split. Qed.
Lemma evolve_cost s c ch ch' : cm_children (f_cm s) !! c = Some ch -> wfam (evolve s c ch') + wchild (f_bye s) c ch = wfam s + wchild (f_bye s) c ch'.
Proof. intros E. unfold wfam, wcm, wmsgs, evolve. cbn. pose proof (msum_upd (wchild (f_bye s)) (cm_children (f_cm s)) c ch ch' E). lia. Qed.
Lemma bye_cost s c : wfam (set_bye s (f_bye s ∪ {[c]})) <= wfam s.
Proof.
  unfold wfam, wcm, wmsgs. cbn.
  pose proof (msum_le (wchild (f_bye s ∪ {[c]})) (wchild (f_bye s)) (cm_children (f_cm s))) as Hm. cut (msum (wchild (f_bye s ∪ {[c]})) (cm_children (f_cm s)) <= msum (wchild (f_bye s)) (cm_children (f_cm s))); [lia|].
  apply Hm. intros k x _. unfold wchild. destruct (decide (k ∈ f_bye s)) as [Hk|Hk].
  - rewrite (bool_decide_eq_true_2 (k ∈ f_bye s ∪ {[c]})), (bool_decide_eq_true_2 (k ∈ f_bye s)) by set_solver. lia.
  - rewrite (bool_decide_eq_false_2 (k ∈ f_bye s)) by done. cbn. case_match; lia.
Qed.
Lemma from_wfam s c l : wfam (from s c l) <= wfam s + sum_list_with wup l /\ f_cm (from s c l) = f_cm s /\ f_foreign (from s c l) = f_foreign s.
Proof. pose proof (from_cost s c l). unfold wfam. assert (f_cm (from s c l) = f_cm s /\ f_bye (from s c l) = f_bye s /\ f_foreign (from s c l) = f_foreign s) as (-> & -> & ->) by (unfold from; by case_decide). split; [lia|done]. Qed.
Lemma own_wfam s c : wfam (own s c [MBye c]) <= wfam s + (if decide (c ∈ f_foreign s) then 1 else 2) /\ f_cm (own s c [MBye c]) = f_cm s.
Proof. pose proof (own_bye_cost s c). unfold wfam. assert (f_cm (own s c [MBye c]) = f_cm s /\ f_bye (own s c [MBye c]) = f_bye s) as (-> & ->) by (unfold own; by case_decide). split; [lia|done]. Qed.
Lemma push_wfam s l : wfam (push s l) = wfam s + sum_list_with wq l.
Proof. unfold wfam. rewrite push_cost. cbn. lia. Qed.
Lemma handles_cost s c m abn esc : cinv (f_cm s) ->
  wfam (child_handles s c m abn esc) <= wfam s + match m with MInitReq _ => 4 | MShutReq _ => 4 | _ => 0 end /\ cinv (f_cm (child_handles s c m abn esc)).
Proof.
  intros Hv. unfold child_handles. case_decide as Hb; [split; [lia|done]|]. destruct (cm_children (f_cm s) !! c) as [ch|] eqn:Ech; [|split; [lia|done]].
  destruct m; try (split; [lia|done]).
  - split; [|by apply cinv_children]. pose proof (evolve_cost s c ch (Child (ch_state ch) (ch_abn ch) true) Ech) as He. unfold wchild in He. cbn in He. destruct (ch_initreq ch); lia.
  - set (ch' := Child AShuttingDown _ _). assert (He := evolve_cost s c ch ch' Ech). unfold wchild in He. rewrite (bool_decide_eq_false_2 _ Hb) in He. cbn in He.
    destruct (from_wfam (evolve s c ch') c [MTrigger 0]) as (F1 & F2 & F3). cbn in F1.
    set (s1 := if esc then _ else _). assert (H1 : wfam s1 <= wfam s + 2 /\ cinv (f_cm s1)).
    { unfold s1. destruct esc; [rewrite F2|]; (split; [lia|by apply cinv_children]). }
    destruct (own_wfam s1 c) as [O1 O2]. rewrite O2. split; [|tauto]. case_decide; lia.
  - split; [|done]. pose proof (bye_cost s c). lia.
Qed.
Lemma to_child_cost s c m abn esc : cinv (f_cm s) -> match m with MInitReq _ | MShutReq _ | MBye _ => True | _ => False end ->
  S (wfam (to_child s c m abn esc)) + (match m with MInitReq _ => if bool_decide (c ∈ f_foreign s) then 0 else 3 | _ => 0 end) <= wfam s + wq m /\ cinv (f_cm (to_child s c m abn esc)).
Proof.
  intros Hv Hm. unfold to_child. case_decide as Hd; [rewrite (bool_decide_eq_true_2 _ Hd)|rewrite (bool_decide_eq_false_2 _ Hd)].
  - split; [|done]. unfold wfam, wmsgs. cbn. pose proof (msum_insert (fun _ => sum_list_with wdown) (f_down s) c (downl s c ++ [m])) as Hx. cbn in Hx. rewrite down_get, sum_list_with_app in Hx. cbn in Hx.
    assert (S (wdown m) <= wq m) by (destruct m; cbn in *; done || lia). destruct m; lia.
  - destruct (handles_cost s c m abn esc Hv) as [H1 H2]. split; [|done]. destruct m; cbn in *; done || lia.
Qed.
Lemma child_ready_get s c st ch : child_ready s c st = Some ch -> cm_children (f_cm s) !! c = Some ch /\ ch_state ch = st.
Proof. unfold child_ready. case_match; [|done]. case_bool_decide; [|done]. intros [= <-]. by destruct_and?. Qed.
Lemma confirm_cost s c subs ask s' e : cinv (f_cm s) -> confirm hp policy sync s c subs ask = Ok (s', e) -> asides hp e + wfam s' <= wfam s + 6 + 36 * births e /\ cinv (f_cm s').
Proof.
  intros Hv. unfold confirm, manage0. destruct (manage false false s (OConfirm c subs ask)) as [[s1 e1]| |] eqn:E; [|done..]. cbn. intros [= <- <-].
  apply manage_cost in E as [H1 H2]; [|done..]. cbn in H1. destruct subs; [rewrite push_wfam; cbn; split; [lia|done]|split; [lia|done]].
Qed.
Lemma deliver_cost s m ok fo ea subs ask abn esc s' e : cinv (f_cm s) -> deliver hp policy sync s m ok fo ea subs ask abn esc = Ok (s', e) ->
  S (asides hp e + wfam s') + (match m with MInitReq c => if (c =? 0)%N || bool_decide (c ∈ f_foreign s) then 0 else 3 | _ => 0 end) <= wfam s + wq m + 36 * births e /\ cinv (f_cm s').
Proof.
  intros Hv H. unfold deliver, manage0 in H. destruct m.
  - case_decide; [injection H as <- <-; split; [cbn; lia|done]|]. apply manage_cost in H as [H1 H2]; [|done..]. cbn in *. split; [lia|done].
  - case_decide; [injection H as <- <-; split; [cbn; lia|done]|]. apply manage_cost in H as [H1 H2]; [|done..]. cbn in *. split; [lia|done].
  - destruct (c =? 0)%N; [|injection H as <- <-; destruct (to_child_cost s c (MInitReq c) abn esc Hv I); cbn in *; split; [lia|done]].
    case_decide; [injection H as <- <-; split; [cbn; lia|done]|]. apply manage_cost in H as [H1 H2]; [|done..]. cbn in *. split; [lia|done].
  - case_decide; [injection H as <- <-; split; [cbn; lia|done]|]. case_decide as Hd; [|injection H as <- <-; split; [cbn; lia|done]].
    apply manage_cost in H as [H1 H2]; [|done..]. split; [|done]. cbn [allow] in H1.
    assert (wfam (FamilyModel.set_init s (f_init s ∖ {[c]})) <= wfam s) by (unfold wfam, wmsgs; cbn; pose proof (size_sub (f_init s) c ltac:(done)); lia). cbn. lia.
  - case_decide; [injection H as <- <-; split; [cbn; lia|done]|].
    apply manage_cost in H as [H1 H2]; [|by apply cinv_initout|done..]. split; [|done]. cbn [allow] in H1. cbn [wq].
    change (wfam (set_cm s _)) with (wfam s) in H1. lia.
  - case_decide; [injection H as <- <-; split; [cbn; lia|done]|]. apply manage_cost in H as [H1 H2]; [|done..]. cbn in *. split; [lia|done].
  - injection H as <- <-. destruct (to_child_cost s c (MShutReq c) abn esc Hv I). cbn in *; split; [lia|done].
  - case_decide; [injection H as <- <-; split; [cbn; lia|done]|]. case_decide as Hd; [|injection H as <- <-; split; [cbn; lia|done]].
    apply confirm_cost in H as [H1 H2]; [|done]. split; [|done].
    assert (wfam (set_shut s (f_shut s ∖ {[c]})) <= wfam s) by (unfold wfam, wmsgs; cbn; pose proof (size_sub (f_shut s) c ltac:(done)); lia). cbn. lia.
  - case_decide; [injection H as <- <-; split; [cbn; lia|done]|]. apply confirm_cost in H as [H1 H2]; [|done]. split; [|done]. cbn. lia.
  - case_decide; [injection H as <- <-; split; [cbn; lia|done]|]. apply manage_cost in H as [H1 H2]; [|done..]. cbn in *. split; [lia|done].
  - destruct (c =? 0)%N; injection H as <- <-.
    + pose proof (bye_cost s 0). split; [cbn; lia|done].
    + destruct (to_child_cost s c (MBye c) abn esc Hv I). cbn in *; split; [lia|done].
Qed.
Lemma fstep_cost s o s' e : cinv (f_cm s) -> fstep s o = Ok (s', e) ->
  moved s o + owed s o + asides hp e + wfam s' <= wfam s + outside o + 36 * births e /\ cinv (f_cm s').
Proof.
  intros Hv H. destruct o; cbn [FamilyModel.fstep moved outside owed] in *; unfold manage0 in *;
    try (apply manage_cost in H as [H1 H2]; [|done..]; cbn in *; split; [lia|done]).
  - (* FShutdown *)
    assert (Hx : wfam s' <= wfam s + 2 /\ f_cm s' = f_cm s /\ asides hp e = 0).
    { destruct (a =? 0)%N.
      - injection H as <- <-. case_match; [rewrite push_wfam; cbn; split; [lia|done]|split; [lia|done]].
      - destruct (cm_children (f_cm s) !! a); injection H as <- <-; [|split; [lia|done]].
        case_match; [|split; [lia|done]]. destruct (from_wfam s a [MTrigger a]) as (H1 & H2 & _). cbn in H1. split; [lia|done]. }
    destruct Hx as (H1 & H2 & H3). rewrite H2, H3. split; [lia|done].
  - destruct (f_q s) as [|m q] eqn:Eq; [injection H as <- <-; split; [cbn; lia|done]|].
    apply deliver_cost in H as [H1 H2]; [|done]. split; [|done].
    assert (wfam (set_q s q) + wq m = wfam s) by (unfold wfam, wmsgs; cbn; rewrite Eq; cbn; lia). change (f_foreign (set_q s q)) with (f_foreign s) in H1. destruct m; lia.
  - destruct (downl s c) as [|m l] eqn:Eq; injection H as <- <-; [split; [cbn; lia|done]|].
    destruct (handles_cost (set_down s (<[c := l]> (f_down s))) c m abn esc Hv) as [H1 H2]. split; [|done].
    assert (wfam (set_down s (<[c := l]> (f_down s))) + wdown m = wfam s).
    { unfold wfam, wmsgs. cbn. pose proof (msum_insert (fun _ => sum_list_with wdown) (f_down s) c l) as Hx. cbn in Hx. rewrite down_get, Eq in Hx. cbn in Hx. lia. }
    cbn [births List.filter length]. destruct m; cbn in *; lia.
  - destruct (upl s c) as [|m l] eqn:Eq; injection H as <- <-; [split; [cbn; lia|done]|]. split; [|done].
    rewrite push_wfam. unfold wfam, wmsgs. cbn. pose proof (msum_insert (fun _ => sum_list_with wup) (f_up s) c l) as Hx. cbn in Hx. rewrite up_get, Eq in Hx. cbn in Hx.
    pose proof (eq_refl : wup m = S (wq m)). lia.
  - destruct (child_ready s c AInitializing) as [ch|] eqn:Er; [|injection H as <- <-; split; [cbn; lia|done]].
    apply child_ready_get in Er as [Ech Est]. destruct (ch_initreq ch) eqn:Ei; injection H as <- <-; [|split; [cbn; lia|done]].
    set (ch' := Child _ _ _). pose proof (evolve_cost s c ch ch' Ech) as He. destruct (from_wfam (evolve s c ch') c [MInitResp c failed]) as (F1 & F2 & _). cbn in F1.
    rewrite F2. split; [|by apply cinv_children]. unfold wchild in He. rewrite Ei, Est in He. cbn in He.
    assert (Hs : bool_decide ((if failed then AInitializing else AInitialized) = AShuttingDown) = false) by (by destruct failed). rewrite Hs in He. bds He. cbn. lia.
  - destruct (child_ready s c AInitialized) as [ch|] eqn:Er; [|injection H as <- <-; split; [cbn; lia|done]].
    apply child_ready_get in Er as [Ech Est]. injection H as <- <-. pose proof (evolve_cost s c ch (Child AOperational (ch_abn ch) (ch_initreq ch)) Ech) as He.
    unfold wchild in He. rewrite Est in He. cbn in He. bds He. split; [cbn; lia|by apply cinv_children].
  - destruct (child_ready s c AShuttingDown) as [ch|] eqn:Er; [|injection H as <- <-; split; [cbn; lia|done]].
    apply child_ready_get in Er as [Ech Est]. case_decide as Hb; injection H as <- <-; [|split; [cbn; lia|done]].
    set (ch' := Child _ _ _). pose proof (evolve_cost s c ch ch' Ech) as He. destruct (from_wfam (evolve s c ch') c [MShutResp c]) as (F1 & F2 & _). cbn in F1.
    rewrite F2. split; [|by apply cinv_children]. unfold wchild in He. rewrite (bool_decide_eq_true_2 _ Hb), Est in He. cbn in He. bds He. cbn. lia.
  - injection H as <- <-. case_decide; [|split; [cbn; lia|done]]. split; [|done]. rewrite push_wfam. unfold wfam, wmsgs. cbn. pose proof (size_sub (f_init s) c ltac:(done)). lia.
  - injection H as <- <-. case_decide; [|split; [cbn; lia|done]]. split; [|done]. rewrite push_wfam. unfold wfam, wmsgs. cbn. pose proof (size_sub (f_shut s) c ltac:(done)). lia.
  - destruct (bool_decide (cm_state (f_cm s) = AInitializing)) eqn:Es; [|injection H as <- <-; split; [cbn; lia|done]].
    destruct (cm_initreq (f_cm s)) eqn:Er; cbn [andb] in H; [|injection H as <- <-; split; [cbn; lia|done]].
    apply bool_decide_eq_true_1 in Es. unfold FamilyModel.manage, cstep in H. rewrite Es in H. cbn in H.
    assert (Hw : forall s1, f_q s1 = f_q s -> f_up s1 = f_up s -> f_down s1 = f_down s -> f_shut s1 = f_shut s -> f_phase s1 = f_phase s -> f_bye s1 = f_bye s -> f_init s1 = f_init s ∩ cm_initout (f_cm s) ->
      f_cm s1 = set_initreq (set_state (f_cm s) AInitialized) false -> wfam s1 + 3 <= wfam s).
    { intros s1 E1 E2 E3 E4 E5 E6 E7 E8. unfold wfam, wmsgs. rewrite E1, E2, E3, E4, E5, E6, E7, E8. unfold wcm. cbn. rewrite Er. pose proof (size_cap (f_init s) (cm_initout (f_cm s))). lia. }
    assert (Hc : cinv (set_initreq (set_state (f_cm s) AInitialized) false)).
    { destruct Hv as [V1 V2 V3 V4 V5 V6 V7 V8 V9 V10 V11 V12 V13 V14 V15]. by split. }
    destruct hp; injection H as <- <-; (split; [|done]).
    + match goal with |- context [wfam ?x] => pose proof (Hw x ltac:(done) ltac:(done) ltac:(done) ltac:(done) ltac:(done) ltac:(done) ltac:(done) ltac:(done)) end. cbn. lia.
    + rewrite push_wfam. match goal with |- context [wfam ?x] => pose proof (Hw x ltac:(done) ltac:(done) ltac:(done) ltac:(done) ltac:(done) ltac:(done) ltac:(done) ltac:(done)) end. cbn. lia.
  - destruct hp eqn:Eh; [rewrite <- Eh in H|injection H as <- <-; split; [cbn; lia|done]]. apply manage_cost in H as [H1 H2]; [|done..]. rewrite Eh in H1. cbn in *. split; [lia|done].
  - destruct hp eqn:Eh; [rewrite <- Eh in H|injection H as <- <-; split; [cbn; lia|done]]. apply manage_cost in H as [H1 H2]; [|done..]. rewrite Eh in H1. cbn in *. split; [lia|done].
  - case_bool_decide as Hp; [|injection H as <- <-; split; [cbn; lia|done]]. apply manage_cost in H as [H1 H2]; [|done|done|by rewrite Hp]. cbn in *. split; [lia|done].
  - case_bool_decide as Hp; [|injection H as <- <-; split; [cbn; lia|done]].
    destruct (manage false false (set_phase s PLeft) (ODeactivate mapping_empty ask)) as [[s1 e1]| |] eqn:E; [|done..]. cbn in H. injection H as <- <-.
    apply manage_cost in E as [H1 H2]; [|done..]. cbn in H1.
    assert (wfam (set_phase s PLeft) + 7 = wfam s) by (unfold wfam, wmsgs; cbn; rewrite Hp; cbn; lia).
    destruct mapping_empty; [rewrite push_wfam; cbn [sum_list_with wq]|]; (split; [lia|done]).
  - injection H as <- <-. case_bool_decide; [rewrite push_wfam|]; cbn; (split; [lia|done]).
Qed.

Lemma flow_run ops s s' ev : cinv (f_cm s) -> run fstep s ops = Ok (s', ev) ->
  moves hp policy sync s ops + wfam s' <= wfam s + sum_list_with outside ops + 36 * births ev /\ cinv (f_cm s').
Proof.
  revert s s' ev. induction ops as [|o ops IH]; intros s s' ev Hv H; cbn in H |- *.
  - injection H as <- <-. split; [cbn; lia|done].
  - destruct (fstep s o) as [[s1 e1]| |] eqn:E; [|done..]. cbn in H.
    destruct (run fstep s1 ops) as [[s2 e2]| |] eqn:E2; [|done..]. cbn in H. injection H as <- <-.
    apply fstep_cost in E as [H1 H2]; [|done]. apply IH in E2 as [H3 H4]; [|done]. rewrite births_app. split; [lia|done].
Qed.
End proofs.
