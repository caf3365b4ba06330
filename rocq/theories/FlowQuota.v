(** C64: how many children are born, if every spawner has a limit. *)
From stdpp Require Import base list gmap.
From Verif Require Import Base ChildMgrModel ChildMgrSpec ChildMgrProofs FamilySteps FamilyModel FlowSpec FlowInv FlowProofs.
Local Open Scope nat_scope.

Lemma msum_sub {K A} `{Countable K} (f : K -> A -> nat) (m' m : gmap K A) :
  (forall k y, m' !! k = Some y -> exists x, m !! k = Some x /\ f k y <= f k x) -> msum f m' <= msum f m.
Proof.
  revert m. induction m' as [|k y m' Hk IH] using map_ind; intros m Hm; [rewrite msum_empty; lia|].
  rewrite msum_new by done. destruct (Hm k y (lookup_insert _ _ _)) as (x & Hx & Hl). rewrite (msum_delete f m k x Hx).
  cut (msum f m' <= msum f (delete k m)); [lia|]. apply IH. intros k' y' Hy. assert (k' <> k) by (by intros ->; rewrite Hk in Hy).
  destruct (Hm k' y') as (x' & Hx' & Hl'); [by rewrite lookup_insert_ne|]. exists x'. by rewrite lookup_delete_ne.
Qed.

Definition left_of (i : cinfo) : nat :=
  match ci_sid i with
  | None => 0
  | Some _ => if ci_active i then (if bool_decide (sc_policy (ci_cfg i) = RNever) then 1 else N.to_nat (sc_max (ci_cfg i) - ci_attempts i)) else 0
  end.
Definition lefts (s : cstate) : nat := msum (fun _ => left_of) (cm_map s).
Definition lims (s : cstate) : Prop := forall a i, cm_map s !! a = Some i -> is_Some (ci_sid i) -> limited (ci_cfg i) = true.
Definition is_instance (e : cevent) : bool := match e with EInstance _ _ _ => true | _ => false end.
Definition made (e : list cevent) : nat := length (List.filter is_instance e).
Definition spawns (e : list cevent) : nat := sum_list_with (fun x => match x with ESpawner _ cfg => quota cfg | _ => 0 end) e.
Definition spawn_lim (e : list cevent) : Prop := forall k cfg, ESpawner k cfg ∈ e -> limited cfg = true.
Lemma made_app e e' : made (e ++ e') = made e + made e'.
Proof. unfold made. by rewrite List.filter_app, app_length. Qed.
Lemma spawns_app e e' : spawns (e ++ e') = spawns e + spawns e'.
Proof. apply sum_list_with_app. Qed.
Lemma left_attempt i now : limited (ci_cfg i) = true -> ci_active i = true -> is_Some (ci_sid i) ->
  (0 < sc_max (ci_cfg i) -> ci_attempts i < sc_max (ci_cfg i))%N -> S (left_of (spawn_attempt i now)) <= left_of i.
Proof.
  intros Hl Ha [k Hk] Hm. unfold left_of, spawn_attempt. cbn. rewrite Hk, Ha. unfold limited in Hl. cbn [andb].
  case_bool_decide as Hr; [rewrite orb_true_r; cbn; lia|]. rewrite orb_false_r in *. apply N.ltb_lt in Hl as Hl'. specialize (Hm Hl').
  rewrite Hl. cbn [andb]. destruct (sc_max (ci_cfg i) <=? ci_attempts i + 1)%N; cbn; lia.
Qed.
Lemma left_same i i' : ci_sid i' = ci_sid i -> ci_cfg i' = ci_cfg i -> ci_active i' = ci_active i -> ci_attempts i' = ci_attempts i -> left_of i' = left_of i.
Proof. unfold left_of. by intros -> -> -> ->. Qed.
Lemma left_off i : left_of (i_active i false) = 0.
Proof. unfold left_of. cbn. by destruct (ci_sid i). Qed.
Lemma left_none i : ci_sid i = None -> left_of i = 0.
Proof. unfold left_of. by intros ->. Qed.

(** An entry changes. *)
Lemma put_left s s' a i i' : cm_map s' = <[a := i']> (cm_map s) -> cm_map s !! a = Some i -> lefts s' + left_of i = lefts s + left_of i'.
Proof. intros E Hi. unfold lefts. rewrite E. exact (msum_upd (fun _ => left_of) (cm_map s) a i i' Hi). Qed.
Lemma put_lim s s' a i i' : cm_map s' = <[a := i']> (cm_map s) -> cm_map s !! a = Some i -> ci_sid i' = ci_sid i -> ci_cfg i' = ci_cfg i -> lims s -> lims s'.
Proof.
  intros E Hi H1 H2 Hl b j Hj Hs. rewrite E in Hj. destruct (decide (b = a)) as [->|Hb].
  - rewrite lookup_insert in Hj. injection Hj as <-. rewrite H2. apply (Hl a i Hi). by rewrite <- H1.
  - rewrite lookup_insert_ne in Hj by done. by eapply Hl.
Qed.
Lemma ask_child_same i : ci_sid (ask_child i) = ci_sid i /\ ci_cfg (ask_child i) = ci_cfg i /\ left_of (ask_child i) <= left_of i.
Proof.
  unfold ask_child. destruct (ci_actor i); [destruct (ci_shut i); (split; [done|split; [done|]]); [by rewrite (left_same i (i_shut i SSent))|lia..]|].
  destruct (ci_timer i =? 0)%N; [split; [done|split; [done|lia]]|]. split; [done|]. split; [done|]. rewrite left_off. lia.
Qed.
Lemma filter_none {A} (f : A -> bool) l : Forall (fun x => f x = false) l -> length (List.filter f l) = 0.
Proof. induction 1 as [|x l Hx _ IH]; [done|]. cbn. by rewrite Hx. Qed.
Lemma ask_made s : made (request_shutdown_all s).2 = 0.
Proof.
  destruct (ask_all_eq s) as [x ->]. cbn [snd]. apply filter_none. apply list.Forall_forall. intros y Hy.
  apply elem_of_list_In, List.in_concat in Hy as (l & Hl%elem_of_list_In & Hy%elem_of_list_In). apply elem_of_list_fmap in Hl as (i & -> & _). unfold ask_events in Hy. repeat case_match; set_solver.
Qed.

Lemma move_left F s e s' : move F s e s' -> cinv s -> lims s -> spawn_lim e -> made e + lefts s' <= lefts s + spawns e /\ lims s'.
Proof.
  intros Hm Hv Hl Hs. destruct Hm.
  - assert (Hmd : made e = 0). { apply filter_none. eapply list.Forall_impl; [done|]. intros [] ?; done. }
    rewrite Hmd. split.
    + cut (lefts s' <= lefts s); [lia|]. apply msum_sub. intros a i' Hi'. pose proof (qr_map _ _ _ H a) as Hq. rewrite Hi' in Hq. destruct (cm_map s !! a) as [i|]; [|done].
      exists i. split; [done|]. destruct Hq. rewrite (left_same i i') by done. done.
    + intros a i' Hi' Hsd. pose proof (qr_map _ _ _ H a) as Hq. rewrite Hi' in Hq. destruct (cm_map s !! a) as [i|] eqn:E; [|done]. destruct Hq. rewrite wk_cfg. apply (Hl a i E). by rewrite <- wk_sid.
  - cbn. set (i := spawn_attempt _ _). split.
    + unfold lefts. cbn. pose proof (msum_insert_le (fun _ => left_of) (cm_map s) (cm_next s) i) as Hx. cbn beta in Hx. rewrite (left_none i eq_refl) in Hx. lia.
    + intros b j Hj Hsd. cbn in Hj. destruct (decide (b = cm_next s)) as [->|Hb]; [rewrite lookup_insert in Hj; injection Hj as <-; by destruct Hsd|].
      rewrite lookup_insert_ne in Hj by done. by eapply Hl.
  - cbn. set (i := CInfo _ _ _ _ _ _ _ _ _ _). split.
    + unfold lefts. cbn. pose proof (msum_insert_le (fun _ => left_of) (cm_map s) (cm_next s) i) as Hx. cbn beta in Hx.
      assert (left_of i <= quota cfg) by (unfold left_of, quota; cbn; case_bool_decide; lia). unfold spawns. cbn. lia.
    + intros b j Hj Hsd. cbn in Hj. destruct (decide (b = cm_next s)) as [->|Hb]; [rewrite lookup_insert in Hj; injection Hj as <-; cbn; apply (Hs (cm_sids s)); cbn; set_solver|].
      rewrite lookup_insert_ne in Hj by done. by eapply Hl.
  - split; [cbn; unfold lefts; cbn; lia|done].
  - assert (Hi : limited (ci_cfg i) = true) by (eapply Hl; [done|by rewrite H2]).
    pose proof (left_attempt i (cm_now s) Hi H1 ltac:(by rewrite H2) (v_max _ Hv _ _ H0 H1)) as Hx.
    set (i2 := i_actor (spawn_attempt i (cm_now s)) (Some (cm_next s))). assert (Hi2 : left_of i2 = left_of (spawn_attempt i (cm_now s))) by (by apply left_same). split.
    + unfold lefts. cbn. fold i2. pose proof (msum_insert_le (fun _ => left_of) (delete a (cm_map s)) (cm_next s) i2) as Hy. cbn beta in Hy.
      pose proof (msum_delete (fun _ => left_of) (cm_map s) a i H0) as Hz. cbn beta in Hz. unfold spawns. cbn. lia.
    + intros b j Hj Hsd. cbn in Hj. fold i2 in Hj. destruct (decide (b = cm_next s)) as [->|Hb]; [rewrite lookup_insert in Hj; by injection Hj as <-|].
      rewrite lookup_insert_ne in Hj by done. apply lookup_delete_Some in Hj as [_ Hj]. by eapply Hl.
  - set (s' := put_info _ _ _). set (i2 := i_active _ false) in s'. assert (E : cm_map s' = <[a := i2]> (cm_map s)) by done.
    split; [|by eapply put_lim]. pose proof (put_left s s' a i _ E H0) as Hp. unfold i2 in Hp. rewrite left_off in Hp. cbn. lia.
  - assert (Hi : limited (ci_cfg i) = true) by (eapply Hl; [done|by rewrite H3]).
    pose proof (left_attempt i (cm_now s) Hi H2 ltac:(by rewrite H3) (v_max _ Hv _ _ H1 H2)) as Hx. cbn.
    match goal with |- context [lefts ?x] => set (s' := x) end. set (i2 := i_timer (spawn_attempt i (cm_now s)) (cm_tid s + 1)).
    assert (E : cm_map s' = <[a := i2]> (cm_map s)) by done. assert (left_of i2 = left_of (spawn_attempt i (cm_now s))) by (by apply left_same).
    split; [|by eapply put_lim]. pose proof (put_left s s' a i i2 E H1). cbn. lia.
  - split.
    + cbn. unfold lefts. cbn. pose proof (msum_delete_le (fun _ => left_of) (cm_map s) a). lia.
    + intros b j Hj. cbn in Hj. apply lookup_delete_Some in Hj as [_ Hj]. by eapply Hl.
  - assert (i' = i) as -> by (eapply next_spawn_same; [done|by left]). set (s' := put_info _ _ _). assert (E : cm_map s' = <[a := i_actor i None]> (cm_map s)) by done.
    split; [|by eapply put_lim]. pose proof (put_left s s' a i _ E H) as Hp. rewrite (left_same i (i_actor i None)) in Hp by done. cbn. lia.
  - assert (i' = i) as -> by (eapply next_spawn_same; [done|by right]). cbn. set (s' := put_info _ _ _). set (i2 := i_actor _ _) in s'. assert (E : cm_map s' = <[a := i2]> (cm_map s)) by done.
    split; [|by eapply put_lim]. pose proof (put_left s s' a i _ E H0) as Hp. rewrite (left_same i i2) in Hp by done. cbn. lia.
  - set (s' := set_spawnq _ _). assert (E : cm_map s' = <[key := i_timer i 0]> (cm_map s)) by done.
    split; [|by eapply put_lim]. pose proof (put_left s s' key i _ E H0) as Hp. rewrite (left_same i (i_timer i 0)) in Hp by done. cbn. lia.
  - set (s' := put_info _ _ _). assert (E : cm_map s' = <[key := i_timer i 0]> (cm_map s)) by done.
    split; [|by eapply put_lim]. pose proof (put_left s s' key i _ E H0) as Hp. rewrite (left_same i (i_timer i 0)) in Hp by done. cbn. lia.
  - set (s' := put_info _ _ _). assert (E : cm_map s' = <[a := i_shut i SSent]> (cm_map s)) by done.
    split; [|by eapply put_lim]. pose proof (put_left s s' a i _ E H) as Hp. rewrite (left_same i (i_shut i SSent)) in Hp by done. cbn. lia.
  - rewrite ask_made. split.
    + cut (lefts (request_shutdown_all s).1 <= lefts s); [lia|]. unfold lefts. rewrite ask_all_map. apply msum_sub. intros b j Hj. rewrite lookup_fmap in Hj. destruct (cm_map s !! b) as [x|]; [|done]. injection Hj as <-. exists x. split; [done|]. apply ask_child_same.
    + intros b j Hj Hsd. rewrite ask_all_map, lookup_fmap in Hj. destruct (cm_map s !! b) as [x|] eqn:E; [|done]. injection Hj as <-. destruct (ask_child_same x) as (A1 & A2 & _). rewrite A2. apply (Hl b x E). by rewrite <- A1.
Qed.
Lemma moves_left F s e s' : ChildMgrProofs.moves F s e s' -> cinv s -> lims s -> spawn_lim e -> made e + lefts s' <= lefts s + spawns e /\ lims s'.
Proof.
  induction 1 as [|s e s1 e1 s2 Hm Hms IH]; intros Hv Hl Hs; [split; [cbn; lia|done]|].
  destruct (move_left _ _ _ _ Hm Hv Hl) as [H1 H2]; [intros k c Hk; apply (Hs k); set_solver|].
  destruct IH as [H3 H4]; [by eapply cinv_move|done|intros k c Hk; apply (Hs k); set_solver|].
  rewrite made_app, spawns_app. split; [lia|done].
Qed.

Section fam.
Context (hp : bool) (policy : spolicy) (sync : bool).
Notation cstep := (cstep hp policy sync).
Notation fstep := (fstep hp policy sync).
Notation manage := (manage hp policy sync).
Definition brings (o : cop) : nat := match o with OCreate => 1 | OSpawn cfg => quota cfg | _ => 0 end.
Definition brings_lim (o : cop) : bool := match o with OSpawn cfg => limited cfg | _ => true end.
Lemma births_none e : (forall c, ECreated c ∉ e) -> births e = 0.
Proof. intros H. apply filter_none, list.Forall_forall. intros [] Hx; try done. by apply H in Hx. Qed.
Definition installs (e : list cevent) : nat := length (List.filter is_spawner e).
Lemma installs_app e e' : installs (e ++ e') = installs e + installs e'.
Proof. unfold installs. by rewrite List.filter_app, app_length. Qed.
Lemma ask_none f s : (forall c, f (EShutReq c) = false) -> f EShutdownContinue = false -> length (List.filter f (request_shutdown_all s).2) = 0.
Proof.
  intros H1 H2. destruct (ask_all_eq s) as [x ->]. cbn [snd]. apply filter_none. apply list.Forall_forall. intros y Hy.
  apply elem_of_list_In, List.in_concat in Hy as (l & Hl%elem_of_list_In & Hy%elem_of_list_In). apply elem_of_list_fmap in Hl as (i & -> & _).
  unfold ask_events in Hy. repeat case_match; try (apply elem_of_nil in Hy; done); apply elem_of_list_singleton in Hy as ->; done.
Qed.
Lemma moves_next F s e s' : ChildMgrProofs.moves F s e s' -> cm_next s' = (cm_next s + N.of_nat (births e + installs e))%N.
Proof.
  induction 1 as [|s e s1 e1 s2 Hm Hms IH]; [cbn; lia|]. rewrite IH, births_app, installs_app.
  cut (cm_next s1 = cm_next s + N.of_nat (births e + installs e))%N; [lia|]. clear IH Hms. destruct Hm; try (unfold births, installs; cbn; lia).
  - rewrite (qr_next _ _ _ H). assert (births e = 0) as -> by (apply filter_none; eapply list.Forall_impl; [done|]; intros [] ?; done).
    assert (installs e = 0) as -> by (apply filter_none; eapply list.Forall_impl; [done|]; intros [] ?; done). lia.
  - unfold births, installs. rewrite !ask_none by done. destruct (ask_all_eq s) as [x ->]. cbn. lia.
Qed.
Lemma created_births e : length (created e) = births e.
Proof. unfold created, births. induction e as [|[] e IH]; cbn; lia. Qed.
Lemma spawner_ops s o s' e k cfg : cinv s -> match o with OChild _ _ => False | _ => True end -> cstep s o = Ok (s', e) -> ESpawner k cfg ∈ e -> o = OSpawn cfg.
Proof.
  intros Hv Ho H Hk. assert (He := step_eff hp policy sync s o s' e Hv Ho H). destruct (ef_next _ _ _ _ He) as [Hn|(cfg' & -> & _)].
  - exfalso. assert (Hm := step_moves hp policy sync False s o s' e Hv ltac:(done) H). apply moves_next in Hm. rewrite Hm, created_births in Hn.
    assert (installs e = 0) as Hi by lia. apply elem_of_list_split in Hk as (e1 & e2 & ->). unfold installs in Hi. rewrite List.filter_app, app_length in Hi. cbn in Hi. lia.
  - cbn in H. injection H as <- <-. cbn in Hk. set_solver.
Qed.
Lemma cstep_left s o s' e : cinv s -> match o with OChild _ _ => False | _ => True end -> cstep s o = Ok (s', e) -> lims s -> brings_lim o = true ->
  births e + lefts s' <= lefts s + brings o /\ lims s'.
Proof.
  intros Hv Ho H Hl Hb.
  assert (Hm := step_moves hp policy sync False s o s' e Hv ltac:(done) H).
  destruct (moves_left _ _ _ _ Hm Hv Hl) as [H1 H2]; [intros k cfg Hk; eapply spawner_ops in Hk; [|done..]; by subst|].
  split; [|done]. assert (He := step_eff hp policy sync s o s' e Hv Ho H).
  assert (Hsp : spawns e <= match o with OSpawn cfg => quota cfg | _ => 0 end).
  { assert (Hd : (exists cfg, o = OSpawn cfg) \/ forall k cfg, ESpawner k cfg ∉ e).
    { assert (HS : forall k cfg, ESpawner k cfg ∈ e -> o = OSpawn cfg) by (intros k cfg; by eapply spawner_ops).
      clear -HS. destruct o; try (right; intros k cfg' Hk; discriminate (HS _ _ Hk)). left. eauto. }
    destruct Hd as [[cfg ->]|Hk].
    - cbn in H. injection H as <- <-. unfold spawns. cbn. lia.
    - cut (spawns e = 0); [lia|]. unfold spawns. clear -Hk. induction e as [|x e IH]; [done|]. cbn. rewrite IH by (intros k cfg Hx; apply (Hk k cfg); by right).
      destruct x; try done. destruct (Hk sid cfg). left. }
  destruct (decide (Forall (fun x => is_created x = false) e)) as [Hn|Hn].
  - unfold births. rewrite (filter_none _ _ Hn). destruct o; cbn in *; lia.
  - assert (Ho' : o = OCreate \/ exists a ok, o = OOnSpawn a ok).
    { apply not_Forall_Exists in Hn; [|apply _]. apply Exists_exists in Hn as (x & Hx & Hc). destruct x; try (by destruct Hc).
      pose proof (ef_kind _ _ _ _ He) as Hk. rewrite list.Forall_forall in Hk. by destruct (Hk _ Hx). }
    destruct Ho' as [->|(a & ok & ->)].
    + cbn in H. injection H as <- <-. cbn in *. lia.
    + cut (births e <= made e); [cbn in *; lia|]. clear -H. cbn in H. destruct (take_first a (cm_spawnq s)) as [q|]; [|by injection H as <- <-]. unfold on_spawn in H.
      change (cm_map (set_spawnq s q)) with (cm_map s) in H. destruct (cm_map s !! a) as [i|]; [|done]. destruct (negb (ci_active i)); [by injection H as <- <-|].
      destruct (ok && _); [injection H as <- <-; cbn; lia|].
      set (st1 := if bool_decide _ && _ then _ else _) in H. assert (H1 : births st1.1.2 = 0).
      { unfold st1. destruct (bool_decide _ && _); [|done]. destruct (cm_initreq _); [done|]. apply births_self. }
      destruct st1 as [[s1 e1] try1]. cbn [fst snd] in H1. destruct try1; cbn in H; injection H as <- <-.
      * match goal with |- births (?x :: e1 ++ ?y) <= _ => change (births (x :: e1 ++ y)) with (births (e1 ++ y)) end. rewrite births_app. cbn. lia.
      * match goal with |- births (?x :: e1) <= _ => change (births (x :: e1)) with (births e1) end. lia.
Qed.

Lemma manage_left fo ea s o s' e : cinv (f_cm s) -> match o with OChild _ _ => False | _ => True end -> lims (f_cm s) -> brings_lim o = true ->
  manage fo ea s o = Ok (s', e) -> births e + lefts (f_cm s') <= lefts (f_cm s) + brings o /\ lims (f_cm s').
Proof.
  intros Hv Ho Hl Hb H. unfold FamilyModel.manage in H. destruct (cstep (f_cm s) o) as [[cm e0]| |] eqn:E; [|done..]. cbn in H. injection H as <- <-.
  destruct (reacts_cost hp fo ea e0 (set_cm s cm) true ltac:(done)) as (_ & H2 & _). cbn. rewrite H2. by eapply cstep_left.
Qed.
Definition same_map (s s' : fstate) : Prop := cm_map (f_cm s') = cm_map (f_cm s).
Lemma same_left s s' : same_map s s' -> lims (f_cm s) -> 0 + lefts (f_cm s') <= lefts (f_cm s) + 0 /\ lims (f_cm s').
Proof. unfold same_map, lefts, lims. intros ->. split; [lia|done]. Qed.
Lemma push_same s s' l : same_map s s' -> same_map s (push s' l).
Proof. done. Qed.
Lemma from_same s s' c l : same_map s s' -> same_map s (from s' c l).
Proof. unfold same_map, from. by case_decide. Qed.
Lemma own_same s s' c l : same_map s s' -> same_map s (own s' c l).
Proof. unfold same_map, own. by case_decide. Qed.
Lemma handles_same s s' c m abn esc : same_map s s' -> same_map s (child_handles s' c m abn esc).
Proof.
  intros H. unfold child_handles. case_decide; [done|]. case_match; [|done]. destruct m; try done. destruct esc; apply own_same; [apply from_same|]; done.
Qed.
Lemma to_child_same s s' c m abn esc : same_map s s' -> same_map s (to_child s' c m abn esc).
Proof. intros H. unfold to_child. case_decide; [done|]. by apply handles_same. Qed.
Lemma confirm_left s c subs ask s' e : cinv (f_cm s) -> lims (f_cm s) -> confirm hp policy sync s c subs ask = Ok (s', e) -> births e + lefts (f_cm s') <= lefts (f_cm s) + 0 /\ lims (f_cm s').
Proof.
  intros Hv Hl. unfold confirm, manage0. destruct (manage false false s (OConfirm c subs ask)) as [[s1 e1]| |] eqn:E; [|done..]. cbn. intros [= <- <-].
  apply manage_left in E; [|done..]. by destruct subs.
Qed.
Lemma fstep_left s o s' e : cinv (f_cm s) -> lims (f_cm s) -> limited_op o = true -> fstep s o = Ok (s', e) ->
  births e + lefts (f_cm s') <= lefts (f_cm s) + offspring o /\ lims (f_cm s').
Proof.
  intros Hv Hl Hb H.
  assert (Hno : forall s1, same_map s s1 -> Ok (s1, []) = Ok (s', e) -> births e + lefts (f_cm s') <= lefts (f_cm s) + 0 /\ lims (f_cm s')).
  { intros s1 H1 [= <- <-]. by apply same_left. }
  destruct o; cbn [FamilyModel.fstep offspring] in *; unfold manage0 in *; try (by apply manage_left in H).
  - destruct (a =? 0)%N; [eapply Hno, H; by destruct (_ && _)|]. destruct (cm_children _ !! a); [|by eapply Hno, H]. eapply Hno, H. case_match; [by apply from_same|done].
  - destruct (f_q s) as [|m q]; [by eapply Hno, H|]. unfold deliver, manage0 in H. destruct m.
    + case_decide; [by eapply Hno, H|]. by apply manage_left in H.
    + case_decide; [by eapply Hno, H|]. by apply manage_left in H.
    + destruct (c =? 0)%N; [|eapply Hno, H; by apply to_child_same]. case_decide; [by eapply Hno, H|]. by apply manage_left in H.
    + case_decide; [by eapply Hno, H|]. case_decide; [|by eapply Hno, H]. by apply manage_left in H.
    + case_decide; [by eapply Hno, H|]. apply manage_left in H; [done|by apply cinv_initout|done..].
    + case_decide; [by eapply Hno, H|]. by apply manage_left in H.
    + eapply Hno, H. by apply to_child_same.
    + case_decide; [by eapply Hno, H|]. case_decide; [|by eapply Hno, H]. by apply confirm_left in H.
    + case_decide; [by eapply Hno, H|]. by apply confirm_left in H.
    + case_decide; [by eapply Hno, H|]. by apply manage_left in H.
    + destruct (c =? 0)%N; [by eapply Hno, H|]. eapply Hno, H. by apply to_child_same.
  - destruct (downl s c); [by eapply Hno, H|]. eapply Hno, H. by apply handles_same.
  - destruct (upl s c); by eapply Hno, H.
  - destruct (child_ready s c AInitializing); [|by eapply Hno, H]. destruct (ch_initreq _); [|by eapply Hno, H]. eapply Hno, H. by apply from_same.
  - destruct (child_ready s c AInitialized); by eapply Hno, H.
  - destruct (child_ready s c AShuttingDown); [|by eapply Hno, H]. case_decide; [|by eapply Hno, H]. eapply Hno, H. by apply from_same.
  - eapply Hno, H. by case_decide.
  - eapply Hno, H. by case_decide.
  - destruct (bool_decide _ && _); [|by eapply Hno, H]. destruct (manage false false s _) as [[s1 e1]| |] eqn:E; [|done..]. cbn in H. injection H as <- <-.
    apply manage_left in E; [|done..]. by destruct hp.
  - destruct hp eqn:Eh; [rewrite <- Eh in H; by apply manage_left in H|by eapply Hno, H].
  - destruct hp eqn:Eh; [rewrite <- Eh in H; by apply manage_left in H|by eapply Hno, H].
  - case_bool_decide; [by apply manage_left in H|by eapply Hno, H].
  - case_bool_decide; [|by eapply Hno, H]. destruct (manage false false (set_phase s PLeft) _) as [[s1 e1]| |] eqn:E; [|done..]. cbn in H. injection H as <- <-.
    apply manage_left in E; [|done..]. by destruct mapping_empty.
  - eapply Hno, H. by case_bool_decide.
Qed.
Lemma run_left ops s s' ev : cinv (f_cm s) -> lims (f_cm s) -> forallb limited_op ops = true -> run fstep s ops = Ok (s', ev) ->
  births ev + lefts (f_cm s') <= lefts (f_cm s) + sum_list_with offspring ops.
Proof.
  revert s s' ev. induction ops as [|o ops IH]; intros s s' ev Hv Hl Hb H; cbn in H |- *.
  - injection H as <- <-. cbn. lia.
  - destruct (fstep s o) as [[s1 e1]| |] eqn:E; [|done..]. cbn in H.
    destruct (run fstep s1 ops) as [[s2 e2]| |] eqn:E2; [|done..]. cbn in H. injection H as <- <-.
    cbn in Hb. apply andb_true_iff in Hb as [Hb1 Hb2]. destruct (fstep_cost _ _ _ _ _ _ _ Hv E) as [_ Hv1]. destruct (fstep_left _ _ _ _ Hv Hl Hb1 E) as [H1 Hl1].
    apply IH in E2; [|done..]. rewrite births_app. lia.
Qed.
Lemma flow_limited ops s ev : forallb limited_op ops = true -> run fstep (finit hp) ops = Ok (s, ev) ->
  births ev <= sum_list_with offspring ops.
Proof.
  intros Hb H. apply run_left in H; [|apply cinv_init| |done].
  - assert (E : lefts (f_cm (finit hp)) = 0) by (by destruct hp; vm_compute). lia.
  - intros a i Hi. cbn in Hi. apply lookup_singleton_Some in Hi as [<- <-]. by intros [? ?].
Qed.
End fam.

Lemma finit_cost hp : wfam (finit hp) = if hp then 28 else 40.
Proof. by destruct hp; vm_compute. Qed.
Lemma flow_total hp policy sync ops s ev : run (fstep hp policy sync) (finit hp) ops = Ok (s, ev) ->
  moves hp policy sync (finit hp) ops <= (if hp then 28 else 40) + sum_list_with outside ops + 36 * births ev.
Proof. intros H. apply flow_run in H as [H _]; [|apply cinv_init]. rewrite finit_cost in H. lia. Qed.
Lemma flow_limited_moves hp policy sync ops s ev : forallb limited_op ops = true -> run (fstep hp policy sync) (finit hp) ops = Ok (s, ev) ->
  births ev <= sum_list_with offspring ops /\
  moves hp policy sync (finit hp) ops <= (if hp then 28 else 40) + sum_list_with (fun o => outside o + 36 * offspring o) ops.
Proof.
  intros Hb H. pose proof (flow_limited _ _ _ _ _ _ Hb H) as Hq. split; [done|]. apply flow_total in H.
  assert (E : sum_list_with (fun o => outside o + 36 * offspring o) ops = sum_list_with outside ops + 36 * sum_list_with offspring ops) by (clear; induction ops as [|o ops IH]; cbn [sum_list_with]; lia).
  rewrite E. lia.
Qed.
Lemma flow_stops hp policy sync ops s ev : run (fstep hp policy sync) (finit hp) ops = Ok (s, ev) ->
  exists n, forall ops' s' ev', run (fstep hp policy sync) s ops' = Ok (s', ev') -> sum_list_with outside ops' = 0 -> births ev' = 0 ->
    moves hp policy sync s ops' <= n.
Proof.
  intros H. apply flow_run in H as [_ Hv]; [|apply cinv_init]. exists (wfam s). intros ops' s' ev' H H1 H2. apply flow_run in H as [H _]; [|done]. lia.
Qed.
