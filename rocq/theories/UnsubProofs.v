(** C67: invariant and counting. *)
From stdpp Require Import base list gmap.
From Verif Require Import Base UnsubModel UnsubSpec.
Open Scope N_scope.
Local Arguments count : simpl never.
Local Arguments waiting : simpl never.

Lemma count_app {A} (f : A -> bool) l k : count f (l ++ k) = (count f l + count f k)%nat.
Proof. unfold count. by rewrite List.filter_app, app_length. Qed.
Lemma count_ext {A} (f g : A -> bool) l : (forall x, x ∈ l -> f x = g x) -> count f l = count g l.
Proof.
  unfold count. induction l as [|x l IH]; intros H; [done|]. cbn. rewrite (H x) by left. destruct (g x); cbn; rewrite IH; auto; intros; apply H; by right.
Qed.
Lemma count_le {A} (f g : A -> bool) l : (forall x, f x = true -> g x = true) -> (count f l <= count g l)%nat.
Proof. intros H. unfold count. induction l as [|x l IH]; [done|]. cbn. destruct (f x) eqn:E; [rewrite (H x E); cbn; lia|]. destruct (g x); cbn; lia. Qed.
Lemma count_map {A} (f : A -> bool) (h : A -> A) l : (forall x, f (h x) = f x) -> count f (h <$> l) = count f l.
Proof. intros H. unfold count. induction l as [|x l IH]; [done|]. cbn. rewrite H. destruct (f x); cbn; by rewrite IH. Qed.

Section proofs.
Context (sup : N -> N) (home : N -> N) (sig : N -> N).
Notation ustep := (ustep sup home sig).
Notation alike := (alike sig).

Lemma find_last_some f l x : find_last f l = Some x -> x ∈ l /\ f x = true.
Proof.
  unfold find_last. intros H. assert (Hx : x ∈ List.filter f l) by (apply last_Some_elem_of in H; done).
  apply elem_of_list_In, List.filter_In in Hx as [H1 H2]. split; [by apply elem_of_list_In|done].
Qed.
Lemma find_last_none f l : find_last f l = None -> count f l = 0%nat.
Proof. unfold find_last, count. intros H. apply last_None in H. by rewrite H. Qed.
Lemma alike_spec a m d x : alike a m d x = true <-> u_actor x = a /\ sig (u_meth x) = sig m /\ u_addr x = d.
Proof. unfold UnsubSpec.alike. rewrite !andb_true_iff, !bool_decide_eq_true. tauto. Qed.
Lemma alike_trans a m d x y : equal sig (u_actor x) (u_meth x) (u_addr x) y = true -> alike a m d x = alike a m d y.
Proof.
  change (equal sig (u_actor x) (u_meth x) (u_addr x) y) with (alike (u_actor x) (u_meth x) (u_addr x) y).
  intros (H1 & H2 & H3)%alike_spec. unfold UnsubSpec.alike. by rewrite H1, H2, H3.
Qed.

Record UI (s : ustate) : Prop := {
  ui_actor : forall a x, x ∈ points s a -> u_actor x = a;
  ui_new : forall a x, x ∈ points s a -> u_id x < us_next s;
  ui_id : forall a, NoDup (u_id <$> points s a);
  ui_same : forall a b x y, x ∈ points s a -> y ∈ points s b -> u_id x = u_id y -> a = b;
  ui_queue : forall a m d, (waiting sig a m d s <= count (fun x => alike a m d x && u_un x) (points s a))%nat }.
Lemma UI_init : UI uinit.
Proof.
  split; unfold points; cbn.
  1-2: intros a x; rewrite lookup_empty; cbn; by intros ?%elem_of_nil.
  - intros a. rewrite lookup_empty. constructor.
  - intros a b x y. rewrite lookup_empty. by intros ?%elem_of_nil.
  - intros. unfold waiting, count. cbn. lia.
Qed.
Lemma points_at s p l a q n : points (USt (<[p := l]> (us_points s)) q n) a = if bool_decide (a = p) then l else points s a.
Proof. unfold points. cbn. case_bool_decide; subst; [by rewrite lookup_insert|by rewrite lookup_insert_ne by congruence]. Qed.

(** Removing one by its number. *)
Lemma remove_spec (f : usub -> bool) l y : NoDup (u_id <$> l) -> y ∈ l ->
  count f l = (count f (List.filter (fun z => negb (bool_decide (u_id z = u_id y))) l) + (if f y then 1 else 0))%nat.
Proof.
  induction l as [|x l IH]; intros Hn Hy; [by apply elem_of_nil in Hy|]. cbn in Hn. apply NoDup_cons in Hn as [Hx Hn]. cbn.
  apply elem_of_cons in Hy as [->|Hy].
  - rewrite bool_decide_eq_true_2 by done. cbn.
    assert (E : List.filter (fun z => negb (bool_decide (u_id z = u_id x))) l = l).
    { clear IH Hn. induction l as [|z l IH]; [done|]. cbn. cbn in Hx. apply not_elem_of_cons in Hx as [Hz Hx]. rewrite bool_decide_eq_false_2 by congruence. cbn. by rewrite IH. }
    rewrite E. unfold count. cbn. destruct (f x); cbn; lia.
  - rewrite bool_decide_eq_false_2; [|intros E; apply Hx; rewrite E; by apply elem_of_list_fmap_1]. cbn. specialize (IH Hn Hy). unfold count in *. cbn in *. destruct (f x); cbn; lia.
Qed.
Lemma mark_spec (f : usub -> bool) l y : NoDup (u_id <$> l) -> y ∈ l -> u_un y = false -> (forall x b, f (USub (u_id x) (u_actor x) (u_meth x) (u_addr x) b) = f x) ->
  count (fun x => f x && u_un x) ((fun z => if bool_decide (u_id z = u_id y) then USub (u_id z) (u_actor z) (u_meth z) (u_addr z) true else z) <$> l) =
  (count (fun x => f x && u_un x) l + (if f y then 1 else 0))%nat.
Proof.
  intros Hn Hy Hu Hf. induction l as [|x l IH]; [by apply elem_of_nil in Hy|]. cbn in Hn. apply NoDup_cons in Hn as [Hx Hn]. rewrite fmap_cons.
  apply elem_of_cons in Hy as [->|Hy].
  - rewrite bool_decide_eq_true_2 by done.
    assert (E : (fun z => if bool_decide (u_id z = u_id x) then USub (u_id z) (u_actor z) (u_meth z) (u_addr z) true else z) <$> l = l).
    { clear IH Hn. induction l as [|z l IH]; [done|]. cbn in Hx. apply not_elem_of_cons in Hx as [Hz Hx]. rewrite fmap_cons. rewrite bool_decide_eq_false_2 by congruence. by rewrite IH. }
    rewrite E. unfold count. cbn [List.filter]. rewrite Hf. cbn [u_un]. rewrite Hu, andb_false_r, andb_true_r. destruct (f x); cbn; lia.
  - rewrite bool_decide_eq_false_2; [|intros E; apply Hx; rewrite E; by apply elem_of_list_fmap_1]. specialize (IH Hn Hy). unfold count in *. cbn. destruct (f x && u_un x); cbn; lia.
Qed.
Lemma mark_elem (l : list usub) i x : x ∈ (fun z => if bool_decide (u_id z = i) then USub (u_id z) (u_actor z) (u_meth z) (u_addr z) true else z) <$> l ->
  exists z, z ∈ l /\ u_id x = u_id z /\ u_actor x = u_actor z.
Proof. intros (z & -> & Hz)%elem_of_list_fmap. exists z. by case_bool_decide. Qed.
Lemma mark_ids (l : list usub) i : u_id <$> ((fun z => if bool_decide (u_id z = i) then USub (u_id z) (u_actor z) (u_meth z) (u_addr z) true else z) <$> l) = u_id <$> l.
Proof. rewrite <- list_fmap_compose. apply list_fmap_ext. intros _ z _. cbn. by case_bool_decide. Qed.

Lemma unsubscribe_UI s p a m d s' e : UI s -> unsubscribe sig s p a m d = Ok (s', e) -> UI s'.
Proof.
  intros Hs. pose proof Hs as [H1 H2 H3 H4 H5]. unfold unsubscribe. destruct (find_last _ _) as [x|] eqn:E; [|done]. apply find_last_some in E as [Hx He].
  destruct (u_un x) eqn:Eu; intros [= <- <-]; [done|].
  assert (Hmem : forall b z, z ∈ (if bool_decide (b = p) then (fun z => if bool_decide (u_id z = u_id x) then USub (u_id z) (u_actor z) (u_meth z) (u_addr z) true else z) <$> points s p else points s b) ->
    exists z', z' ∈ points s b /\ u_id z = u_id z' /\ u_actor z = u_actor z').
  { intros b z. case_bool_decide; [subst b; apply mark_elem|eauto]. }
  split; cbn; intros b; rewrite ?points_at.
  - intros z (z' & Hz & _ & ->)%Hmem. eauto.
  - intros z (z' & Hz & -> & _)%Hmem. eauto.
  - case_bool_decide; [|done]. by rewrite mark_ids.
  - intros c y z. rewrite points_at. intros (y' & Hy & -> & _)%Hmem (z' & Hz & -> & _)%Hmem. by apply H4.
  - intros m' d'. specialize (H5 b m' d'). rewrite ?points_at. unfold waiting in *. cbn. rewrite count_app. case_bool_decide as Eb.
    + subst b. rewrite mark_spec by done. cut (count (alike p m' d') [x] = if alike p m' d' x then 1%nat else 0%nat); [lia|]. unfold count. cbn. by destruct (alike p m' d' x).
    + cut (count (alike b m' d') [x] = 0%nat); [lia|]. unfold count. cbn. destruct (alike b m' d' x) eqn:Ea; [|done]. apply alike_spec in Ea as (Ea & _). rewrite (H1 _ _ Hx) in Ea. congruence.
Qed.
Lemma step_UI s o s' e : UI s -> ustep s o = Ok (s', e) -> UI s'.
Proof.
  intros Hs. pose proof Hs as [H1 H2 H3 H4 H5]. destruct o as [a m d|a m d|a h m|]; cbn.
  - intros [= <- <-].
    assert (Hmem : forall b z, z ∈ (if bool_decide (b = a) then points s a ++ [USub (us_next s) a m d false] else points s b) -> z ∈ points s b \/ b = a /\ z = USub (us_next s) a m d false).
    { intros b z. case_bool_decide; [|by left]. subst b. intros [?|?%elem_of_list_singleton]%elem_of_app; auto. }
    split; cbn; intros b; rewrite ?points_at.
    + intros z [Hz|[-> ->]]%Hmem; eauto.
    + intros z [Hz|[-> ->]]%Hmem; [|cbn; lia]. specialize (H2 _ _ Hz). lia.
    + case_bool_decide; [|done]. rewrite fmap_app. apply NoDup_app. split; [done|]. split; [|apply NoDup_singleton]. intros i (z & -> & Hz)%elem_of_list_fmap Hi%elem_of_list_singleton. cbn in Hi. specialize (H2 _ _ Hz). lia.
    + intros c y z. rewrite points_at. intros [Hy|[-> ->]]%Hmem [Hz|[-> ->]]%Hmem; cbn; [by apply H4| | |done].
      * specialize (H2 _ _ Hy). lia.
      * specialize (H2 _ _ Hz). lia.
    + intros m' d'. rewrite ?points_at. specialize (H5 b m' d'). unfold waiting in *. cbn. case_bool_decide; [|done]. subst b. rewrite count_app. lia.
  - by apply unsubscribe_UI.
  - by apply unsubscribe_UI.
  - destruct (us_queue s) as [|x q] eqn:Eq; [by intros [= <- <-]|]. destruct (find_last _ _) as [y|] eqn:E; [|done]. intros [= <- <-]. apply find_last_some in E as [Hy He].
    assert (Hmem : forall b z, z ∈ (if bool_decide (b = u_actor x) then List.filter (fun z => negb (bool_decide (u_id z = u_id y))) (points s (u_actor x)) else points s b) -> z ∈ points s b).
    { intros b z. case_bool_decide; [|done]. subst b. intros [Hz _]%elem_of_list_In%List.filter_In. by apply elem_of_list_In. }
    split; cbn; intros b; rewrite ?points_at.
    + intros z Hz%Hmem. eauto.
    + intros z Hz%Hmem. eauto.
    + case_bool_decide; [|done]. generalize (H3 (u_actor x)). generalize (points s (u_actor x)). intros l. induction l as [|z l IH]; [done|]. cbn. intros [Hz Hn]%NoDup_cons. destruct (negb _); [|auto]. cbn. apply NoDup_cons. split; [|auto].
      intros (w & Ew & Hw)%elem_of_list_fmap. apply Hz. rewrite Ew. apply elem_of_list_fmap_1. apply elem_of_list_In, List.filter_In in Hw as [Hw _]. by apply elem_of_list_In.
    + intros c v z. rewrite points_at. intros Hv%Hmem Hz%Hmem. by apply H4.
    + intros m' d'. specialize (H5 b m' d'). rewrite ?points_at. unfold waiting in *. cbn. rewrite Eq in H5. change (x :: q) with ([x] ++ q) in H5. rewrite count_app in H5. pose proof (alike_trans b m' d' x y He) as Hxy.
      assert (Hc : count (alike b m' d') [x] = if alike b m' d' y then 1%nat else 0%nat) by (unfold count; cbn; rewrite Hxy; by destruct (alike b m' d' y)). rewrite Hc in H5.
      case_bool_decide as Eb.
      * subst b. rewrite (remove_spec _ (points s (u_actor x)) y) in H5 by done. destruct (alike (u_actor x) m' d' y); cbn in H5; [|lia]. destruct (u_un y); cbn in H5; lia.
      * destruct (alike b m' d' y) eqn:Ea; [|lia]. apply alike_spec in Ea as (Ea & _). rewrite (H1 _ _ Hy) in Ea. congruence.
Qed.
Lemma run_UI ops s s' e : UI s -> run ustep s ops = Ok (s', e) -> UI s'.
Proof. intros Hs. apply (run_inv ustep UI); [|done]. intros. by eapply step_UI. Qed.

(** What is waiting is there. *)
Lemma step_nocrash s o : UI s -> ustep s o <> Crash.
Proof.
  intros Hs. destruct o as [a m d|a m d|a h m|]; cbn; [done| | |].
  1-2: unfold unsubscribe; destruct (find_last _ _) as [x|]; [by destruct (u_un x)|done].
  destruct (us_queue s) as [|x q] eqn:Eq; [done|]. destruct (find_last _ _) as [y|] eqn:E; [done|]. apply find_last_none in E. exfalso.
  pose proof (ui_queue s Hs (u_actor x) (u_meth x) (u_addr x)) as H. unfold waiting in H. rewrite Eq in H.
  assert (H0 : (1 <= count (alike (u_actor x) (u_meth x) (u_addr x)) (x :: q))%nat) by (unfold count; cbn; assert (Ex : alike (u_actor x) (u_meth x) (u_addr x) x = true) by (by apply alike_spec); rewrite Ex; cbn; lia).
  assert (Hle : (count (fun z => alike (u_actor x) (u_meth x) (u_addr x) z && u_un z) (points s (u_actor x)) <= count (alike (u_actor x) (u_meth x) (u_addr x)) (points s (u_actor x)))%nat) by (apply count_le; intros z [? _]%andb_true_iff; done).
  change (count (alike (u_actor x) (u_meth x) (u_addr x)) (points s (u_actor x)) = 0%nat) in E. lia.
Qed.
(** The supervisor knows nothing about the subscriptions of its actors. *)
Lemma other_fails s p a m d : UI s -> p <> a -> unsubscribe sig s p a m d = AssertFail.
Proof.
  intros Hs Hp. unfold unsubscribe. destruct (find_last _ _) as [x|] eqn:E; [|done]. apply find_last_some in E as [Hx He]. apply andb_true_iff in He as [He _]. apply andb_true_iff in He as [He _]. apply bool_decide_eq_true in He.
  rewrite (ui_actor s Hs _ _ Hx) in He. done.
Qed.

(** Counting. *)
Lemma asked_step s p b m' d' a m d s' e : UI s -> unsubscribe sig s p b m' d' = Ok (s', e) ->
  here sig a m d s' = here sig a m d s /\ waiting sig a m d s' = (waiting sig a m d s + asked sig a m d e)%nat /\ made sig a m d e = 0%nat /\ gone sig a m d e = 0%nat.
Proof.
  intros Hs. unfold unsubscribe. destruct (find_last _ _) as [x|] eqn:E; [|done]. destruct (u_un x).
  - intros [= <- <-]. unfold asked, made, gone, count. cbn. lia.
  - intros [= <- <-]. unfold here, waiting. rewrite points_at. cbn. rewrite count_app. split; [|split; [|done]].
    + case_bool_decide; [|done]. subst p. apply count_map. intros z. by case_bool_decide.
    + f_equal. unfold asked, count. cbn. by destruct (alike a m d x).
Qed.
Lemma count_step s o s' e a m d : UI s -> ustep s o = Ok (s', e) ->
  (here sig a m d s' + gone sig a m d e = here sig a m d s + made sig a m d e /\ waiting sig a m d s' + gone sig a m d e = waiting sig a m d s + asked sig a m d e)%nat.
Proof.
  intros Hs Hst. destruct o as [b m' d'|b m' d'|b h m'|]; cbn in Hst.
  - injection Hst as <- <-. unfold here, waiting. rewrite points_at. cbn. split; [|unfold gone, asked, count; cbn; lia].
    case_bool_decide as Eb.
    + subst b. rewrite count_app. unfold made, gone, count. cbn. destruct (alike a m d _); cbn; lia.
    + unfold made, gone, count. cbn. destruct (alike a m d _) eqn:Ea; cbn; [|lia]. apply alike_spec in Ea as (Ea & _). cbn in Ea. congruence.
  - destruct (asked_step _ _ _ _ _ a m d _ _ Hs Hst) as (-> & -> & -> & ->). lia.
  - destruct (asked_step _ _ _ _ _ a m d _ _ Hs Hst) as (-> & -> & -> & ->). lia.
  - destruct (us_queue s) as [|x q] eqn:Eq; [injection Hst as <- <-; unfold gone, made, asked, count; cbn; lia|]. destruct (find_last _ _) as [y|] eqn:E; [|done]. injection Hst as <- <-. apply find_last_some in E as [Hy He].
    pose proof (alike_trans a m d x y He) as Hxy. unfold here, waiting. rewrite points_at, Eq. cbn. split.
    + case_bool_decide as Eb.
      * subst a. rewrite (remove_spec _ (points s (u_actor x)) y) by (done || apply Hs). unfold gone, made, count. cbn. destruct (alike _ m d y); cbn; lia.
      * unfold gone, made, count. cbn. destruct (alike a m d y) eqn:Ea; cbn; [|lia]. apply alike_spec in Ea as (Ea & _). rewrite (ui_actor s Hs _ _ Hy) in Ea. congruence.
    + unfold gone, asked, count. cbn. rewrite Hxy. destruct (alike a m d y); cbn; lia.
Qed.
Lemma counted ops s s' e a m d : UI s -> run ustep s ops = Ok (s', e) ->
  (here sig a m d s' + gone sig a m d e = here sig a m d s + made sig a m d e /\ waiting sig a m d s' + gone sig a m d e = waiting sig a m d s + asked sig a m d e)%nat.
Proof.
  revert s s' e. induction ops as [|o ops IH]; intros s s' e Hs Hr; cbn in Hr; [injection Hr as <- <-; unfold gone, made, asked, count; cbn; lia|].
  destruct (ustep s o) as [[s1 e1]| |] eqn:E; try done. cbn in Hr. destruct (run ustep s1 ops) as [[s2 e2]| |] eqn:E2; try done. cbn in Hr. injection Hr as <- <-.
  pose proof (count_step _ _ _ _ a m d Hs E) as [C1 C2]. destruct (IH _ _ _ (step_UI _ _ _ _ Hs E) E2) as [D1 D2]. unfold gone, made, asked in *. rewrite !count_app. lia.
Qed.
(** What is asked for. *)
Lemma asked_for s p a m d s' e x : UI s -> unsubscribe sig s p a m d = Ok (s', e) -> EAsked x ∈ e ->
  p = a /\ x ∈ points s a /\ u_addr x = d /\ sig (u_meth x) = sig m /\ (told_apart sig s a m d -> u_meth x = m).
Proof.
  intros Hs. unfold unsubscribe. destruct (find_last _ _) as [y|] eqn:E; [|done]. apply find_last_some in E as [Hy He]. destruct (u_un y); intros [= <- <-]; [by intros ?%elem_of_nil|].
  intros [= ->]%elem_of_list_singleton. change (alike a m d y = true) in He. apply alike_spec in He as (H1 & H2 & H3). rewrite (ui_actor s Hs _ _ Hy) in H1. subst p. repeat split; try done. intros Ht. by apply Ht.
Qed.
Lemma found_one s a m d x : UI s -> x ∈ points s a -> alike a m d x = true -> exists s' e, unsubscribe sig s a a m d = Ok (s', e).
Proof.
  intros Hs Hx Ha. unfold unsubscribe. destruct (find_last _ _) as [y|] eqn:E; [destruct (u_un y); eauto|]. exfalso. apply find_last_none in E. unfold count in E. apply nil_length_inv in E.
  assert (Hin : x ∈ List.filter (equal sig a m d) (points s a)) by (apply elem_of_list_In, List.filter_In; split; [by apply elem_of_list_In|exact Ha]). rewrite E in Hin. by apply elem_of_nil in Hin.
Qed.
End proofs.
