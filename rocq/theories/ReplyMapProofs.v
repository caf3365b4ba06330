(** Proofs for C68. *)
From stdpp Require Import base list gmap.
From Verif Require Import Base ReplyMapModel ReplyMapSpec.
Open Scope N_scope.

(** What the queue of confirmations says about points and about UNSUBSCRIBING. *)
Record QI (pts : list info) (un : gset N) (q : list qmsg) : Prop := {
  qi_in : forall i, i ∈ confs q -> i ∈ pts;
  qi_un : forall i, i ∈ pts -> (i ∈ confs q <-> i_uid i ∈ un);
  qi_nd : NoDup (confs q) }.
Record PI (s : rstate) : Prop := {
  pi_uid : forall i j, i ∈ r_points s -> j ∈ r_points s -> i_uid i = i_uid j -> i = j;
  pi_adr : forall i j, i ∈ r_points s -> j ∈ r_points s -> i_adr i = i_adr j -> i = j;
  pi_nd : NoDup (r_points s);
  pi_lt : forall i, i ∈ r_points s -> i_uid i < r_next s /\ i_adr i < r_next s;
  pi_unlt : forall u, u ∈ r_un s -> u < r_next s;
  pi_trk : forall i, i ∈ r_points s <-> mapped s (i_own i) (i_ty i) = Some i;
  pi_key : forall a ty i, mapped s a ty = Some i -> i_own i = a /\ i_ty i = ty;
  pi_ne : forall a m, r_map s !! a = Some m -> m <> ∅ /\ a ∈ r_kids s;
  pi_bld : forall k b, r_bld s !! k = Some b -> b_inst b = true -> b_adr b < r_next s /\ forall i, i ∈ r_points s -> i_adr i = b_adr b -> i_own i = b_own b /\ i_ty i = b_ty b;
  pi_binj : forall k b k' b', r_bld s !! k = Some b -> r_bld s !! k' = Some b' -> b_inst b = true -> b_inst b' = true -> b_adr b = b_adr b' -> b_own b = b_own b' /\ b_ty b = b_ty b';
  pi_seen : r_kids s ⊆ r_seen s;
  pi_ends : r_ended s ⊆ r_seen s;
  pi_0 : 0 ∉ r_ended s;
  pi_0s : 0 ∈ r_seen s }.
Definition down_ok (s : rstate) : Prop :=
  (forall i, i ∈ r_points s -> i_own i = 0 /\ i_uid i ∈ r_un s) /\
  (r_map s <> ∅ /\ r_kids s = {[0]} /\ r_cm s = CmOn /\ QPlug ∉ r_q s \/
   r_map s = ∅ /\ r_kids s = ∅ /\ ((exists n, r_cm s = CmOff (S n) /\ r_q s = repeat QPlug (S n)) \/ r_cm s = CmGone /\ r_q s = [])).
Record RI (s : rstate) : Prop := {
  ri_p : PI s;
  ri_q : QI (r_points s) (r_un s) (r_q s);
  ri_end : forall a, a ∈ r_ended s -> a ∈ r_kids s -> r_map s !! a <> None /\ forall i, i ∈ r_points s -> i_own i = a -> i_uid i ∈ r_un s;
  ri_unend : forall i, i ∈ r_points s -> i_uid i ∈ r_un s -> i_own i ∈ r_ended s \/ r_down s = true;
  ri_up : r_down s = false -> r_cm s = CmOn /\ 0 ∈ r_kids s /\ QPlug ∉ r_q s /\ forall a, a ∈ r_kids s -> a <> 0 -> r_map s !! 0 <> None;
  ri_dn : r_down s = true -> down_ok s }.

Definition post (s s' : rstate) (e : list revt) : Prop :=
  (removed e = [] /\ (r_kids s' = r_kids s \/ exists a, a ∉ r_seen s /\ r_kids s' = {[a]} ∪ r_kids s) \/
   exists a, removed e = [a] /\ a ∈ r_kids s /\ r_kids s' = r_kids s ∖ {[a]}) /\
  r_seen s ⊆ r_seen s' /\ subbed e ++ r_points s ≡ₚ confirmed e ++ r_points s'.

Lemma post_refl s s' e : removed e = [] -> subbed e = [] -> confirmed e = [] -> r_kids s' = r_kids s -> r_seen s' = r_seen s -> r_points s' = r_points s -> post s s' e.
Proof. intros H1 H2 H3 H4 H5 H6. split; [left; split; [done|by left]|]. rewrite H5, H2, H3, H6. done. Qed.

Lemma mapped_some s a ty i : mapped s a ty = Some i <-> exists m, r_map s !! a = Some m /\ m !! ty = Some i.
Proof.
  unfold mapped. destruct (r_map s !! a) as [m|] eqn:E; cbn.
  - split; [intros; by exists m|intros (m' & ? & ?); by simplify_eq].
  - rewrite lookup_empty. split; [done|]. by intros (? & ? & ?).
Qed.
Lemma RI_init : RI rinit.
Proof.
  split; cbn.
  - split; cbn; try (intros; by set_solver); constructor.
  - split; cbn; [done|set_solver|constructor].
  - set_solver.
  - set_solver.
  - intros _. split; [done|]. split; [set_solver|]. split; [set_solver|]. set_solver.
  - done.
Qed.

(** Unsubscribing a list of points. *)
Lemma confs_app p q : confs (p ++ q) = confs p ++ confs q.
Proof. apply omap_app. Qed.
Lemma unsubs_spec l s : QI (r_points s) (r_un s) (r_q s) -> (forall i, i ∈ l -> i ∈ r_points s) ->
  (forall i j, i ∈ r_points s -> j ∈ r_points s -> i_uid i = i_uid j -> i = j) ->
  exists un q e, unsubs s l = (set_un s un q, e) /\ removed e = [] /\ subbed e = [] /\ confirmed e = [] /\
    QI (r_points s) un q /\ (QPlug ∈ q <-> QPlug ∈ r_q s) /\
    forall u, u ∈ un <-> u ∈ r_un s \/ exists i, i ∈ l /\ u = i_uid i.
Proof.
  revert s. induction l as [|i l IH]; intros s HQ Hl Hu; cbn.
  - exists (r_un s), (r_q s), []. split; [by destruct s|]. split_and!; try done. set_solver.
  - unfold unsub. case_bool_decide as Hi.
    + destruct (IH s HQ) as (un & q & e & E & H1 & H2 & H3 & H4 & H5 & H6); [set_solver|done|]. rewrite E. exists un, q, e. split_and!; try done.
      intros u. rewrite H6. split; [set_solver|]. intros [?|(j & [->|?]%elem_of_cons & ->)]; [by left|by left|right; eauto].
    + set (s1 := set_un s ({[i_uid i]} ∪ r_un s) (r_q s ++ [QConf i])).
      assert (Hip : i ∈ r_points s) by set_solver.
      destruct (IH s1) as (un & q & e & E & H1 & H2 & H3 & H4 & H5 & H6); [|set_solver|done|].
      * destruct HQ as [Q1 Q2 Q3]. unfold s1; cbn. split.
        -- intros j. rewrite confs_app. cbn. intros [?|?%elem_of_list_singleton]%elem_of_app; [auto|by subst].
        -- intros j Hj. rewrite confs_app. cbn. rewrite elem_of_app, elem_of_list_singleton, (Q2 j Hj). split; [set_solver|].
           intros [Hx%elem_of_singleton|?]%elem_of_union; [right; by apply Hu|by left].
        -- rewrite confs_app. apply NoDup_app. split; [done|]. split; [|apply NoDup_singleton]. intros j Hj ->%elem_of_list_singleton. by apply Hi, (Q2 i Hip).
      * rewrite E. exists un, q, (EUn i :: e). split_and!; try done.
        -- rewrite H5. unfold s1; cbn. rewrite elem_of_app, elem_of_list_singleton. split; [by intros [?|?]|by left].
        -- intros u. rewrite H6. unfold s1; cbn. split.
           ++ intros [[?%elem_of_singleton|?]%elem_of_union|(j & ? & ->)]; [right; exists i; set_solver|by left|right; exists j; set_solver].
           ++ intros [?|(j & [->|?]%elem_of_cons & ->)]; [set_solver|set_solver|right; eauto].
Qed.

(** Building changes only builders. *)
Lemma build_spec s a ty : exists b, build s a ty = set_bld s b /\ b_own b = a /\ b_ty b = ty /\
  (b_inst b = false /\ mapped s a ty <> None \/ b_inst b = true /\ b_adr b = r_next s /\ mapped s a ty = None).
Proof. unfold build. destruct (mapped s a ty) eqn:E; eexists; split; try done; split; try done; split; try done; [left; split; [done|congruence]|by right]. Qed.
Lemma PI_bld s b : PI s -> (b_inst b = true -> b_adr b = r_next s) -> PI (set_bld s b).
Proof.
  intros [] Hb. split; cbn; try done.
  - intros i Hi. specialize (pi_lt0 i Hi). lia.
  - intros u Hu. specialize (pi_unlt0 u Hu). lia.
  - intros k b' Hk Hi. destruct (decide (k = r_next s)) as [->|Hn].
    + rewrite lookup_insert in Hk. injection Hk as <-. rewrite (Hb Hi). split; [lia|]. intros i Hi' E. specialize (pi_lt0 i Hi'). lia.
    + rewrite lookup_insert_ne in Hk by done. destruct (pi_bld0 k b' Hk Hi). split; [lia|done].
  - intros k b1 k' b2 Hk Hk' Hi Hi' E. destruct (decide (k = r_next s)) as [->|Hn]; [rewrite lookup_insert in Hk; injection Hk as <-|rewrite lookup_insert_ne in Hk by done];
      (destruct (decide (k' = r_next s)) as [->|Hn']; [rewrite lookup_insert in Hk'; injection Hk' as <-|rewrite lookup_insert_ne in Hk' by done]); try done.
    + rewrite (Hb Hi) in E. destruct (pi_bld0 k' b2 Hk' Hi'). lia.
    + rewrite (Hb Hi') in E. destruct (pi_bld0 k b1 Hk Hi). lia.
    + by apply (pi_binj0 k b1 k' b2).
Qed.
Lemma RI_bld s b : RI s -> (b_inst b = true -> b_adr b = r_next s) -> RI (set_bld s b).
Proof. intros [] Hb. split; try done. by apply PI_bld. Qed.

(** Sending. *)
Lemma mapped_set s i a ty : mapped s (i_own i) (i_ty i) = None -> mapped (amap_set s i) a ty = if bool_decide (a = i_own i /\ ty = i_ty i) then Some i else mapped s a ty.
Proof.
  intros Hn. unfold amap_set, mapped in *; cbn. rewrite Hn. case_bool_decide as H.
  - destruct H as [-> ->]. rewrite lookup_insert. cbn. by rewrite lookup_insert.
  - destruct (decide (a = i_own i)) as [->|Ha].
    + rewrite lookup_insert. cbn. rewrite lookup_insert_ne; [done|]. intros <-. by apply H.
    + by rewrite lookup_insert_ne.
Qed.
Lemma map_set_none s i a : r_map (amap_set s i) !! a <> None <-> a = i_own i \/ r_map s !! a <> None.
Proof.
  unfold amap_set; cbn. destruct (decide (a = i_own i)) as [->|Ha]; [rewrite lookup_insert|rewrite lookup_insert_ne by done]; naive_solver.
Qed.
Lemma RI_send s b : RI s -> in_turn s b -> (exists k, r_bld s !! k = Some b) ->
  RI (send s b).1 /\ post s (send s b).1 (send s b).2 /\ r_kids (send s b).1 = r_kids s.
Proof.
  intros HR [(Hk & He & Hd) Hm] [k Hb]. unfold send. destruct (b_inst b) eqn:Hi; cbn; [|split; [done|split; [|done]]; by apply post_refl].
  specialize (Hm eq_refl). destruct HR as [[] HQ Hend Hun Hup Hdn].
  set (i := Info (r_next s) (b_own b) (b_ty b) (b_adr b)). destruct (pi_bld0 k b Hb Hi) as [Hba Hbi].
  assert (Hfresh : forall j, j ∈ r_points s -> i_adr j <> b_adr b).
  { intros j Hj E. destruct (Hbi j Hj E) as [E1 E2]. apply pi_trk0 in Hj. rewrite E1, E2 in Hj. congruence. }
  assert (Hmap : forall a ty, mapped (amap_set (set_sub s i) i) a ty = if bool_decide (a = i_own i /\ ty = i_ty i) then Some i else mapped s a ty) by (intros; by apply (mapped_set (set_sub s i))).
  assert (Hin : forall j, j ∈ r_points s ++ [i] <-> j ∈ r_points s \/ j = i) by (intros j; by rewrite elem_of_app, elem_of_list_singleton).
  split; [|split; [|done]].
  - split.
    + split; cbn [amap_set set_map set_sub r_points r_next r_un r_kids r_seen r_ended r_bld]; try done.
      * intros j1 j2. rewrite !Hin. intros [H1| ->] [H2| ->] E; try done; [by apply pi_uid0| |]; cbn in E; [destruct (pi_lt0 j1 H1)|destruct (pi_lt0 j2 H2)]; lia.
      * intros j1 j2. rewrite !Hin. intros [H1| ->] [H2| ->] E; try done; [by apply pi_adr0| |]; cbn in E; exfalso; [by apply (Hfresh j1)|by apply (Hfresh j2)].
      * apply NoDup_app. split; [done|]. split; [|apply NoDup_singleton]. intros j Hj ->%elem_of_list_singleton. by apply (Hfresh i).
      * intros j. rewrite Hin. intros [H| ->]; [destruct (pi_lt0 j H)|cbn]; lia.
      * intros u Hu. specialize (pi_unlt0 u Hu). lia.
      * intros j. rewrite Hmap, Hin. case_bool_decide as H; [|rewrite <- pi_trk0; split; [intros [?| ->]; [done|by destruct H]|by left]].
        split; [|intros [= <-]; by right]. intros [Hj| ->]; [|done]. exfalso. apply pi_trk0 in Hj. destruct H as [E1 E2]. rewrite E1, E2 in Hj. unfold i in Hj. cbn [i_own i_ty] in Hj. congruence.
      * intros a ty j. rewrite Hmap. case_bool_decide as H; [intros [= <-]; by destruct H|by apply pi_key0].
      * intros a m Hm'. assert (Ha : a = b_own b \/ a <> b_own b) by (destruct (decide (a = b_own b)); auto). destruct Ha as [->|Ha].
        -- split; [|done]. intros ->. pose proof (Hmap (b_own b) (b_ty b)) as HH. rewrite bool_decide_true in HH by done. apply mapped_some in HH as (m & E1 & E2). assert (m = ∅) as -> by (cbn in *; congruence). by rewrite lookup_empty in E2.
        -- unfold amap_set in Hm'. cbn [set_map r_map] in Hm'. rewrite lookup_insert_ne in Hm' by done. by apply pi_ne0.
      * intros k' b' Hk' Hi'. destruct (pi_bld0 k' b' Hk' Hi') as [H1 H2]. split; [lia|]. intros j. rewrite Hin. intros [Hj| ->]; [by apply H2|]. cbn. intros E.
        by apply (pi_binj0 k b k' b').
    + destruct HQ as [Q1 Q2 Q3]. cbn. split; [|intros j; rewrite Hin|done].
      * intros j Hj. apply Hin. left. by apply Q1.
      * intros [Hj| ->]; [by apply Q2|]. cbn. split.
        -- intros Hx%Q1. exfalso. by apply (Hfresh i).
        -- intros Hx. specialize (pi_unlt0 _ Hx). lia.
    + cbn [amap_set set_map set_sub r_points r_next r_un r_kids r_seen r_ended r_bld]. intros a Ha1 Ha2. destruct (Hend a Ha1 Ha2) as [H1 H2]. split.
      * apply (map_set_none (set_sub s i)). by right.
      * intros j. rewrite Hin. intros [Hj| ->]; [by apply H2|]. cbn. intros <-. done.
    + cbn. intros j. rewrite Hin. intros [Hj| ->]; [by apply Hun|]. cbn. intros Hx. specialize (pi_unlt0 _ Hx). lia.
    + intros _. destruct (Hup Hd) as (H1 & H2 & H3 & H4). split; [done|]. split; [done|]. split; [done|]. intros a Ha Hn. apply (map_set_none (set_sub s i)). right. by apply (H4 a).
    + cbn. congruence.
  - split; [left; split; [done|by left]|]. split; [done|]. cbn. apply Permutation_cons_append.
Qed.

(** A new child. *)
Lemma RI_born s a : RI s -> a ∉ r_seen s -> r_down s = false -> r_map s !! 0 <> None -> RI (set_born s a).
Proof.
  intros [[] HQ Hend Hun Hup Hdn] Ha Hd H0. split; try done.
  - split; cbn; try done; [|set_solver|set_solver|set_solver].
    intros b m Hb. destruct (pi_ne0 b m Hb). set_solver.
  - cbn. intros b Hb [->%elem_of_singleton|Hk]%elem_of_union; [|by apply Hend].
    exfalso. by apply Ha, pi_ends0.
  - cbn. intros _. destruct (Hup Hd) as (H1 & H2 & H3 & H4). split_and!; try done. set_solver.
  - cbn. congruence.
Qed.
Lemma step_child s a : RI s -> rok s (OChild a) -> exists s' e, rstep s (OChild a) = Ok (s', e) /\ RI s' /\ post s s' e.
Proof.
  intros HR [Ha Hd]. destruct (ri_up s HR Hd) as (Hc & H0 & _ & _).
  destruct (build_spec s 0 0) as (b & Eb & Hbo & Hbt & Hbi).
  assert (HRb : RI (set_bld s b)) by (apply RI_bld; [done|]; intros Hi; destruct Hbi as [[? _]|(_ & ? & _)]; [congruence|done]).
  assert (Hlk : r_bld (set_bld s b) !! r_next s = Some b) by (cbn; by rewrite lookup_insert).
  destruct (RI_send (set_bld s b) b HRb) as (HR1 & HP1 & HK1).
  - split; [split_and!; [by rewrite Hbo| |done]|].
    + rewrite Hbo. apply (pi_0 s), HR.
    + intros Hi. destruct Hbi as [[? _]|(_ & _ & Hn)]; [congruence|]. rewrite Hbo, Hbt. exact Hn.
  - by exists (r_next s).
  - assert (Hcomm : rstep s (OChild a) = Ok (set_born (send (set_bld s b) b).1 a, (send (set_bld s b) b).2)).
    { unfold rstep. assert (E : build (set_born s a) 0 0 = set_born (set_bld s b) a).
      { rewrite <- Eb. unfold build. change (mapped (set_born s a) 0 0) with (mapped s 0 0). by destruct (mapped s 0 0). }
      rewrite E. change (r_bld (set_born (set_bld s b) a)) with (r_bld (set_bld s b)). rewrite Hlk. unfold send. by destruct (b_inst b). }
    eexists _, _. split; [exact Hcomm|]. assert (Hseen : r_seen (send (set_bld s b) b).1 = r_seen s) by (unfold send; by destruct (b_inst b)). split.
    + apply RI_born; [done| | |].
      * by rewrite Hseen.
      * unfold send. by destruct (b_inst b).
      * unfold send. destruct Hbi as [[-> Hn]|(-> & _ & _)]; cbn [fst].
        -- intros E. apply Hn. unfold mapped. change (r_map (set_bld s b)) with (r_map s) in E. by rewrite E.
        -- apply map_set_none. left. by rewrite <- Hbo.
    + destruct HP1 as (HP & HS & HC). split.
      * left. split; [|right; exists a; split; [done|]; cbn; by rewrite HK1]. unfold send. by destruct (b_inst b).
      * split; [cbn; rewrite Hseen; set_solver|]. exact HC.
Qed.
Lemma step_build s a ty : RI s -> exists s' e, rstep s (OBuild a ty) = Ok (s', e) /\ RI s' /\ post s s' e.
Proof.
  intros HR. destruct (build_spec s a ty) as (b & Eb & Hbo & Hbt & Hbi). cbn. rewrite Eb. eexists _, _. split; [done|]. split; [|by apply post_refl].
  apply RI_bld; [done|]. intros Hi. destruct Hbi as [[? _]|(_ & ? & _)]; [congruence|done].
Qed.
Lemma step_send s b : RI s -> rok s (OSend b) -> exists s' e, rstep s (OSend b) = Ok (s', e) /\ RI s' /\ post s s' e.
Proof.
  intros HR Ho. cbn. destruct (r_bld s !! b) as [x|] eqn:E; [|eexists _, _; split; [done|]; split; [done|by apply post_refl]].
  destruct (RI_send s x HR (Ho x E)) as (H1 & H2 & _); [by exists b|]. destruct (send s x) as [s' e]. eauto.
Qed.

(** A child confirms its shutdown. *)
Lemma points_of s a m : PI s -> r_map s !! a = Some m -> forall i, i ∈ (map_to_list m).*2 <-> i ∈ r_points s /\ i_own i = a.
Proof.
  intros HP Hm i. rewrite elem_of_list_fmap. split.
  - intros ([ty j] & -> & Hj%elem_of_map_to_list). cbn. assert (Hx : mapped s a ty = Some j) by (apply mapped_some; eauto). destruct (pi_key s HP a ty j Hx) as [E1 E2].
    split; [|done]. apply (pi_trk s HP). by rewrite E1, E2.
  - intros [Hi <-]. apply (pi_trk s HP) in Hi. apply mapped_some in Hi as (m' & E1 & E2). simplify_eq. exists (i_ty i, i). split; [done|]. by apply elem_of_map_to_list.
Qed.
Lemma PI_un s un q : PI s -> (forall u, u ∈ un -> u < r_next s) -> PI (set_un s un q).
Proof. intros [] H. by split. Qed.
Lemma PI_ended s a : PI s -> a ∈ r_kids s -> a <> 0 -> PI (set_ended s ({[a]} ∪ r_ended s)).
Proof. intros [] H1 H2. split; try done; cbn; set_solver. Qed.
Lemma step_end s a : RI s -> rok s (OEnd a) -> exists s' e, rstep s (OEnd a) = Ok (s', e) /\ RI s' /\ post s s' e.
Proof.
  intros HR (Hk & Ha & Hd). destruct HR as [HP HQ Hend Hun Hup Hdn]. pose proof (PI_ended s a HP Hk Ha) as HPe. cbn. unfold on_shutdown_confirm. rewrite bool_decide_true by done.
  set (s1 := set_ended s ({[a]} ∪ r_ended s)) in *. change (r_map s1) with (r_map s). destruct (r_map s !! a) as [m|] eqn:Em.
  - destruct (unsubs_spec ((map_to_list m).*2) s1) as (un & q & e & E & H1 & H2 & H3 & H4 & H5 & H6); [done| |by apply HPe|].
    { intros i Hi. by apply (points_of s1 a m HPe Em) in Hi as [? _]. }
    rewrite E. eexists _, _. split; [done|]. split; [|by apply post_refl].
    assert (Hpo : forall i, i ∈ (map_to_list m).*2 <-> i ∈ r_points s /\ i_own i = a) by apply (points_of s1 a m HPe Em). split.
    + apply PI_un; [done|]. intros u [Hu|(i & Hi & ->)]%H6; [by apply (pi_unlt s HP)|]. apply Hpo in Hi as [Hi _]. by apply (pi_lt s HP).
    + exact H4.
    + cbn. intros b [->%elem_of_singleton|Hb]%elem_of_union Hbk.
      * split; [congruence|]. intros i Hi Ei. apply H6. right. exists i. split; [by apply Hpo|done].
      * destruct (Hend b Hb Hbk) as [X1 X2]. split; [done|]. intros i Hi Ei. apply H6. left. by apply X2.
    + cbn. intros i Hi [Hu|(j & Hj & E')]%H6.
      * destruct (Hun i Hi Hu); [left; set_solver|by right].
      * apply Hpo in Hj as [Hj1 Hj2]. rewrite (pi_uid s HP i j Hi Hj1 E'). left. set_solver.
    + cbn. intros _. destruct (Hup Hd) as (X1 & X2 & X3 & X4). split_and!; try done. rewrite H5. exact X3.
    + cbn. congruence.
  - unfold remove_child. change (r_kids s1) with (r_kids s). rewrite bool_decide_true by done. eexists _, _. split; [done|]. split.
    + destruct HPe. split; try done.
      * split; try done; cbn in *; [|set_solver]. intros b m Hb. destruct (pi_ne0 b m Hb) as [Y1 Y2]. split; [done|]. apply elem_of_difference. split; [done|]. intros ->%elem_of_singleton. congruence.
      * cbn. intros b [->%elem_of_singleton|Hb]%elem_of_union Hbk; [set_solver|]. apply Hend; [done|set_solver].
      * cbn. intros i Hi Hu. destruct (Hun i Hi Hu); [left; set_solver|by right].
      * cbn. intros _. destruct (Hup Hd) as (X1 & X2 & X3 & X4). split_and!; try done; [set_solver|]. intros b Hb Hn. apply (X4 b); [set_solver|done].
      * cbn. congruence.
    + split; [right; exists a; done|]. done.
Qed.

(** The shutdown of the supervisor. *)
Lemma no_map_no_points s : PI s -> r_map s = ∅ -> r_points s = [].
Proof.
  intros HP Hm. destruct (r_points s) as [|i l] eqn:E; [done|]. assert (Hi : i ∈ r_points s) by (rewrite E; set_solver).
  apply (pi_trk s HP) in Hi. unfold mapped in Hi. rewrite Hm, lookup_empty in Hi. cbn in Hi. by rewrite lookup_empty in Hi.
Qed.
Lemma confs_plug n : confs (repeat QPlug n) = [].
Proof. by induction n. Qed.
Lemma no_confs q : confs q = [] -> QPlug ∉ q -> q = [].
Proof. destruct q as [|[i|] q]; [done|done|]. intros _ H. exfalso. apply H. set_solver. Qed.
Lemma step_down s : RI s -> rok s ODown -> exists s' e, rstep s ODown = Ok (s', e) /\ RI s' /\ post s s' e.
Proof.
  intros HR Ho. destruct HR as [HP HQ Hend Hun Hup Hdn].
  destruct (decide (r_map s = ∅)) as [Hm|Hm].
  - (* nothing was ever asked for *)
    pose proof (no_map_no_points s HP Hm) as Hpts. destruct (r_down s) eqn:Hd.
    + destruct (Hdn eq_refl) as [_ [(? & _)|(_ & Hk & Hcq)]]; [done|].
      assert (Hsd : set_down s = s) by (destruct s; cbn in *; by subst).
      assert (Hst : rstep s ODown = Ok (s, [])).
      { cbn. unfold deactivate. rewrite Hsd. destruct Hcq as [(n & Hc & _)|[Hc _]]; rewrite Hc.
        - rewrite bool_decide_true by done. rewrite Hk. rewrite bool_decide_false by (rewrite size_empty; lia). cbn. unfold base_deactivate. rewrite Hc. rewrite Hpts. done.
        - cbn. by rewrite Hpts. }
      eexists _, _. split; [exact Hst|]. split; [|by apply post_refl]. split; try done; rewrite Hd; done.
    + destruct Ho as [?|Hk]; [congruence|]. destruct (Hup eq_refl) as (Hc & _ & Hq & _).
      assert (Hq0 : r_q s = []). { apply no_confs; [|done]. destruct (confs (r_q s)) as [|i l] eqn:E; [done|]. exfalso. assert (Hi : i ∈ r_points s) by (apply HQ; rewrite E; set_solver). rewrite Hpts in Hi. by apply elem_of_nil in Hi. }
      assert (Hst : rstep s ODown = Ok (set_q (set_cm (set_kids (set_down s) ∅) (CmOff own_subs)) (repeat QPlug own_subs), [ERemoved 0])).
      { cbn. unfold deactivate. cbn [set_down r_cm r_map r_kids]. rewrite Hc, bool_decide_true by done. rewrite Hk. rewrite bool_decide_true by apply size_singleton.
        unfold remove_child. cbn [set_down r_kids]. rewrite Hk. rewrite bool_decide_true by set_solver. cbn. unfold base_deactivate. cbn [set_kids set_down r_cm r_q]. rewrite Hc, Hq0. cbn. rewrite Hpts. cbn. by rewrite difference_diag_L. }
      eexists _, _. split; [exact Hst|]. split; [|split; [right; exists 0; split; [done|]; split; [set_solver|]; cbn; rewrite Hk; set_solver|done]].
      split; cbn; try done.
      * destruct HP. split; try done; cbn. intros a m Hx. rewrite Hm, lookup_empty in Hx. done.
      * rewrite Hpts. split; cbn; [set_solver|set_solver|constructor].
      * set_solver.
      * intros _. split; [cbn; rewrite Hpts; set_solver|]. right. split_and!; try done. left. by exists 4%nat.
  - assert (Hst1 : deactivate (set_down s) = Ok (set_down s, [])).
    { unfold deactivate. cbn [set_down r_cm r_map]. rewrite bool_decide_false by done. by destruct (r_cm s). }
    assert (Hk : r_kids s = {[0]} /\ r_cm s = CmOn /\ QPlug ∉ r_q s).
    { destruct (r_down s) eqn:Hd.
      - destruct (Hdn eq_refl) as [_ [(_ & ? & ? & ?)|(? & _)]]; [|done]. done.
      - destruct Ho as [?|Hk]; [congruence|]. destruct (Hup eq_refl) as (Hc & _ & Hq & _). done. }
    destruct Hk as (Hk & Hc & Hq).
    assert (Hown : forall i, i ∈ r_points s -> i_own i = 0).
    { intros i Hi. apply (pi_trk s HP) in Hi. apply mapped_some in Hi as (m & E1 & E2). destruct (pi_ne s HP _ _ E1) as [_ Hin]. rewrite Hk in Hin. by apply elem_of_singleton in Hin. }
    destruct (unsubs_spec (rev (r_points s)) (set_down s)) as (un & q & e & E & H1 & H2 & H3 & H4 & H5 & H6); [done| |by apply HP|].
    { intros i Hi. apply elem_of_list_In, in_rev, elem_of_list_In in Hi. done. }
    assert (Hst : rstep s ODown = Ok (set_un (set_down s) un q, e)).
    { unfold rstep. rewrite Hst1. cbn [rbind]. change (r_points (set_down s)) with (r_points s). rewrite E. done. }
    eexists _, _. split; [exact Hst|]. split; [|by apply post_refl].
    assert (Hall : forall i, i ∈ r_points s -> i_uid i ∈ un).
    { intros i Hi. apply H6. right. exists i. split; [|done]. apply elem_of_list_In. rewrite <- in_rev. by apply elem_of_list_In. }
    split; cbn; try done.
    + apply (PI_un (set_down s)); [by destruct HP|]. cbn. intros u [Hu|(i & Hi & ->)]%H6; [by apply (pi_unlt s HP)|]. apply elem_of_list_In, in_rev, elem_of_list_In in Hi. by apply (pi_lt s HP).
    + intros a Ha Hka. destruct (Hend a Ha Hka). split; [done|]. auto.
    + intros. by right.
    + intros _. split; [cbn; auto|]. left. cbn. split_and!; try done. rewrite H5. exact Hq.
Qed.

(** A confirmation. *)
Lemma last_filter i l : NoDup l -> i ∈ l -> (forall j, j ∈ l -> same i j = true -> j = i) -> last (List.filter (same i) l) = Some i.
Proof.
  intros Hn Hi Hj. assert (Hs : same i i = true) by (unfold same; by rewrite !bool_decide_true).
  destruct (last (List.filter (same i) l)) as [j|] eqn:E.
  - apply last_Some_elem_of in E. apply elem_of_list_In, List.filter_In in E as [E1 E2]. f_equal. apply Hj; [by apply elem_of_list_In|done].
  - apply last_None in E. assert (X : i ∈ List.filter (same i) l) by (apply elem_of_list_In, List.filter_In; split; [by apply elem_of_list_In|done]). rewrite E in X. by apply elem_of_nil in X.
Qed.
Lemma drop_perm i l : NoDup l -> i ∈ l -> (forall j, j ∈ l -> i_uid j = i_uid i -> j = i) ->
  l ≡ₚ i :: List.filter (fun k => negb (bool_decide (i_uid k = i_uid i))) l.
Proof.
  induction l as [|x l IH]; intros Hn Hi Hj; [by apply elem_of_nil in Hi|]. apply NoDup_cons in Hn as [Hx Hn]. cbn.
  destruct (bool_decide (i_uid x = i_uid i)) eqn:E; cbn.
  - apply bool_decide_eq_true in E. assert (x = i) as -> by (apply Hj; [set_solver|done]). constructor.
    assert (X : List.filter (fun k => negb (bool_decide (i_uid k = i_uid i))) l = l); [|by rewrite X].
    clear IH Hi. induction l as [|y l IH]; [done|]. cbn. rewrite bool_decide_false; [cbn; f_equal; apply IH|].
    + set_solver.
    + by apply NoDup_cons in Hn as [_ ?].
    + set_solver.
    + intros E'. apply Hx. rewrite <- (Hj y); [set_solver|set_solver|done].
  - apply elem_of_cons in Hi as [->|Hi]; [by rewrite bool_decide_true in E|]. rewrite <- perm_swap. constructor. apply IH; [done|done|]. set_solver.
Qed.
Definition without (i : info) (l : list info) : list info := List.filter (fun k => negb (bool_decide (i_uid k = i_uid i))) l.
Lemma elem_without i j l : j ∈ without i l <-> j ∈ l /\ i_uid j <> i_uid i.
Proof.
  unfold without. rewrite elem_of_list_In, List.filter_In, <- elem_of_list_In. rewrite negb_true_iff, bool_decide_eq_false. done.
Qed.
Lemma NoDup_without i l : NoDup l -> NoDup (without i l).
Proof. intros H. unfold without. apply NoDup_ListNoDup, List.NoDup_filter, NoDup_ListNoDup. done. Qed.

(** The state after the confirmation of [i]. *)
Definition map_after (s : rstate) (i : info) (m : gmap N info) : gmap N (gmap N info) :=
  if bool_decide (delete (i_ty i) m = ∅) then delete (i_own i) (r_map s) else <[i_own i := delete (i_ty i) m]> (r_map s).
Lemma amap_remove_ok s i q : PI s -> i ∈ r_points s -> exists m, r_map s !! i_own i = Some m /\ m !! i_ty i = Some i /\ amap_remove (set_q s q) i = Ok (set_map (set_q s q) (map_after s i m)).
Proof.
  intros HP Hi. pose proof Hi as Hi'. apply (pi_trk s HP) in Hi'. apply mapped_some in Hi' as (m & E1 & E2). exists m. split_and!; try done.
  unfold amap_remove, map_after. cbn [set_q r_map]. rewrite E1.
  assert (X : filter (fun p => ~ (i_uid p.2 = i_uid i /\ i_adr p.2 = i_adr i)) m = delete (i_ty i) m); [|by rewrite X].
  apply map_eq. intros k. destruct (decide (k = i_ty i)) as [->|Hn].
  - rewrite lookup_delete. apply map_filter_lookup_None. right. intros x Hx. simplify_eq. cbn. tauto.
  - rewrite lookup_delete_ne by done. destruct (m !! k) as [j|] eqn:Ej; [|apply map_filter_lookup_None; by left].
    apply map_filter_lookup_Some. split; [done|]. cbn. intros [E _].
    assert (Hj : mapped s (i_own i) k = Some j) by (apply mapped_some; eauto). destruct (pi_key s HP _ _ _ Hj) as [K1 K2].
    assert (j ∈ r_points s) by (apply (pi_trk s HP); by rewrite K1, K2). assert (j = i) as -> by by apply (pi_uid s HP). by apply Hn.
Qed.
Lemma mapped_after s i m s' a ty : r_map s' = map_after s i m -> r_map s !! i_own i = Some m ->
  mapped s' a ty = if bool_decide (a = i_own i /\ ty = i_ty i) then None else mapped s a ty.
Proof.
  intros Hs' Hm. unfold mapped. rewrite Hs'. unfold map_after.
  assert (X : default ∅ ((if bool_decide (delete (i_ty i) m = ∅) then delete (i_own i) (r_map s) else <[i_own i:=delete (i_ty i) m]> (r_map s)) !! i_own i) = delete (i_ty i) m).
  { case_bool_decide as H; [rewrite lookup_delete; by rewrite H|by rewrite lookup_insert]. }
  destruct (decide (a = i_own i)) as [->|Ha].
  - rewrite X, Hm. cbn. destruct (decide (ty = i_ty i)) as [->|Ht].
    + rewrite bool_decide_true by done. by rewrite lookup_delete.
    + rewrite bool_decide_false by tauto. by rewrite lookup_delete_ne.
  - rewrite (bool_decide_false (a = i_own i /\ ty = i_ty i)) by tauto. f_equal. f_equal. case_bool_decide; [by rewrite lookup_delete_ne|by rewrite lookup_insert_ne].
Qed.
Lemma PI_after s i m s' : PI s -> i ∈ r_points s -> r_map s !! i_own i = Some m -> r_map s' = map_after s i m -> r_points s' = without i (r_points s) ->
  r_un s' = r_un s -> r_next s' = r_next s -> r_bld s' = r_bld s -> r_seen s' = r_seen s -> r_ended s' = r_ended s ->
  r_kids s' = (if bool_decide (delete (i_ty i) m = ∅) then r_kids s ∖ {[i_own i]} else r_kids s) -> PI s'.
Proof.
  intros HP Hi Hm Hmap Hpts Hun Hnext Hbld Hseen Hend Hkids.
  assert (Hma : forall a ty, mapped s' a ty = if bool_decide (a = i_own i /\ ty = i_ty i) then None else mapped s a ty) by (intros; by eapply mapped_after).
  destruct HP. split; rewrite ?Hpts, ?Hun, ?Hnext, ?Hbld, ?Hseen, ?Hend; try done.
  - intros j k [Hj _]%elem_without [Hk _]%elem_without. by apply pi_uid0.
  - intros j k [Hj _]%elem_without [Hk _]%elem_without. by apply pi_adr0.
  - by apply NoDup_without.
  - intros j [Hj _]%elem_without. by apply pi_lt0.
  - intros j. rewrite elem_without, Hma, pi_trk0. destruct (bool_decide_reflect (i_own j = i_own i /\ i_ty j = i_ty i)) as [H|H].
    + split; [|done]. intros [Hj Hn]. exfalso. apply Hn. destruct H as [E1 E2]. apply pi_trk0 in Hi. rewrite E1, E2 in Hj. congruence.
    + split; [by intros [? _]|]. intros Hj. split; [done|]. intros E. apply H. apply pi_trk0 in Hj. by rewrite (pi_uid0 j i Hj Hi E).
  - intros a ty j. rewrite Hma. destruct (bool_decide (a = i_own i /\ ty = i_ty i)); [done|]. apply pi_key0.
  - intros a m'. rewrite Hmap, Hkids. unfold map_after. destruct (bool_decide_reflect (delete (i_ty i) m = ∅)) as [H|H].
    + intros [Ha Hx]%lookup_delete_Some. destruct (pi_ne0 _ _ Hx). split; [done|]. set_solver.
    + intros [[<- <-]|[Ha Hx]]%lookup_insert_Some; [split; [done|]; by destruct (pi_ne0 _ _ Hm)|by apply pi_ne0].
  - intros k b Hk Hb. destruct (pi_bld0 k b Hk Hb) as [H1 H2]. split; [done|]. intros j [Hj _]%elem_without. by apply H2.
  - rewrite Hkids. case_bool_decide; set_solver.
Qed.
Lemma QI_after s i q pts un : PI s -> pts = r_points s -> QI pts un (QConf i :: q) -> QI (without i pts) un q.
Proof.
  intros HP -> [Q1 Q2 Q3]. cbn in *. apply NoDup_cons in Q3 as [Q3 Q4]. assert (Hi : i ∈ r_points s) by (apply Q1; set_solver). split; [| |done].
  - intros j Hj. apply elem_without. split; [apply Q1; set_solver|]. intros E. apply Q3. rewrite <- (pi_uid s HP j i); [done|apply Q1; set_solver|done|done].
  - intros j [Hj Hn]%elem_without. rewrite <- (Q2 j Hj). rewrite elem_of_cons. split; [by right|]. by intros [->|?].
Qed.
Lemma step_conf s : RI s -> exists s' e, rstep s OConf = Ok (s', e) /\ RI s' /\ post s s' e.
Proof.
  intros HR. pose proof HR as [HP HQ Hend Hun Hup Hdn]. cbn. unfold conf. destruct (r_q s) as [|[i|] q] eqn:Eq.
  - eexists _, _. split; [done|]. split; [done|by apply post_refl].
  - assert (Hi : i ∈ r_points s) by (apply HQ; set_solver).
    assert (Hiu : i_uid i ∈ r_un s) by (apply HQ; [done|set_solver]).
    destruct (amap_remove_ok s i q HP Hi) as (m & Hm & Hmi & Er).
    assert (Hcm : r_cm s = CmOn).
    { destruct (r_down s) eqn:Hd; [|by apply Hup]. destruct (Hdn eq_refl) as [_ [(_ & _ & ? & _)|(_ & _ & [(n & _ & E)|[_ E]])]]; [done| |]; rewrite Eq in E; done. }
    assert (Hik : i_own i ∈ r_kids s) by (by destruct (pi_ne s HP _ _ Hm)).
    assert (Hnp : QPlug ∉ q).
    { destruct (r_down s) eqn:Hd; [|destruct (Hup eq_refl) as (_ & _ & X & _); set_solver]. destruct (Hdn eq_refl) as [_ [(_ & _ & _ & X)|(_ & _ & [(n & E & _)|[E _]])]]; [|congruence|congruence]. rewrite Eq in X. set_solver. }
    set (kids' := if bool_decide (delete (i_ty i) m = ∅) then r_kids s ∖ {[i_own i]} else r_kids s).
    set (s2 := set_kids (set_map (set_q s q) (map_after s i m)) kids').
    set (e2 := if bool_decide (delete (i_ty i) m = ∅) then [ERemoved (i_own i)] else []).
    set (gone := bool_decide (r_kids s2 = ∅) || bool_decide (r_map s2 = ∅)).
    set (s3 := if gone then base_deactivate s2 else s2).
    assert (E1 : cm_unsubscription (set_q s q) i = Ok (s3, e2)).
    { unfold cm_unsubscription. change (r_cm (set_q s q)) with (r_cm s). rewrite Hcm, Er. cbn [rbind set_map r_map]. unfold e2, s3, gone, s2, kids', map_after. case_bool_decide as H.
      - rewrite lookup_delete. unfold remove_child. cbn [set_q set_map r_kids]. rewrite bool_decide_true by done. done.
      - rewrite lookup_insert. done. }
    assert (Hp3 : r_points s3 = r_points s) by (unfold s3, base_deactivate; destruct gone; [|done]; by destruct (r_cm s2)).
    set (s4 := set_points s3 (without i (r_points s))).
    assert (E2 : lt_unsubscription s3 i = Ok (s4, [EConf i])).
    { unfold lt_unsubscription. rewrite Hp3. rewrite last_filter; [done|apply HP|done|]. intros j Hj Hs. unfold same in Hs. apply andb_prop in Hs as [_ Hs%bool_decide_eq_true]. by apply (pi_adr s HP). }
    rewrite E1. cbn [rbind]. rewrite E2. cbn [rbind]. eexists _, _. split; [done|].
    assert (H4 : r_map s4 = map_after s i m /\ r_points s4 = without i (r_points s) /\ r_un s4 = r_un s /\ r_next s4 = r_next s /\ r_bld s4 = r_bld s /\ r_seen s4 = r_seen s /\ r_ended s4 = r_ended s /\ r_kids s4 = kids' /\ r_down s4 = r_down s).
    { unfold s4, s3, base_deactivate. destruct gone; [|done]. by destruct (r_cm s2). }
    destruct H4 as (F1 & F2 & F3 & F4 & F5 & F6 & F7 & F8 & F9).
    split; [|split].
    + assert (HP4 : PI s4) by (by eapply (PI_after s i m)).
      destruct (r_down s) eqn:Hd.
      * (* only the subscriptions of the supervisor are left *)
        destruct (Hdn eq_refl) as [Hall [(_ & Hk0 & _ & _)|(_ & _ & [(n & E & _)|[E _]])]]; [|congruence|congruence].
        destruct (Hall i Hi) as [Hi0 _].
        assert (Hm0 : forall a, r_map s !! a <> None -> a = 0).
        { intros a Ha. destruct (r_map s !! a) as [m'|] eqn:E'; [|done]. destruct (pi_ne s HP a m' E') as [_ X]. rewrite Hk0 in X. by apply elem_of_singleton in X. }
        destruct (decide (delete (i_ty i) m = ∅)) as [He|He].
        -- assert (Hkids : kids' = ∅) by (unfold kids'; rewrite bool_decide_true by done; rewrite Hi0, Hk0; set_solver).
           assert (Hmap : map_after s i m = ∅).
           { unfold map_after. rewrite bool_decide_true by done. apply map_eq. intros a. rewrite lookup_empty, Hi0. destruct (decide (a = 0)) as [->|Ha]; [by rewrite lookup_delete|]. rewrite lookup_delete_ne by done. destruct (r_map s !! a) eqn:E'; [|done]. exfalso. apply Ha, Hm0. congruence. }
           assert (Hp0 : without i (r_points s) = []) by (rewrite <- F2; apply no_map_no_points; [done|congruence]).
           assert (Hq0 : q = []).
           { apply no_confs; [|done]. destruct (confs q) as [|j l] eqn:Ej; [done|]. exfalso. assert (X : QI (without i (r_points s)) (r_un s) q) by (by apply (QI_after s)). destruct X as [X _ _]. rewrite Hp0, Ej in X. specialize (X j). set_solver. }
           assert (Hg : gone = true) by (unfold gone; change (r_kids s2) with kids'; by rewrite bool_decide_true).
           assert (Hc4 : r_cm s4 = CmOff own_subs /\ r_q s4 = repeat QPlug own_subs).
           { unfold s4, s3. rewrite Hg. unfold base_deactivate. change (r_cm s2) with (r_cm s). change (r_q s2) with q. rewrite Hcm, Hq0. done. }
           destruct Hc4 as [Hc4 Hq4]. split.
           ++ done.
           ++ rewrite F2, F3, Hp0, Hq4. split; cbn; [set_solver|set_solver|constructor].
           ++ intros a _. rewrite F8, Hkids. set_solver.
           ++ rewrite F2, Hp0. set_solver.
           ++ rewrite F9. done.
           ++ intros _. split; [rewrite F2, Hp0; set_solver|]. right. rewrite F1, F8. split_and!; try done. left. exists 4%nat. done.
        -- assert (Hkids : kids' = {[0]}) by (unfold kids'; rewrite bool_decide_false by done; exact Hk0).
           assert (Hmap : map_after s i m <> ∅).
           { unfold map_after. rewrite bool_decide_false by done. apply insert_non_empty. }
           assert (Hg : gone = false) by (unfold gone; change (r_kids s2) with kids'; change (r_map s2) with (map_after s i m); rewrite !bool_decide_false; [done|done|rewrite Hkids; set_solver]).
           assert (Hc4 : r_cm s4 = CmOn /\ r_q s4 = q) by (unfold s4, s3; rewrite Hg; done). destruct Hc4 as [Hc4 Hq4]. split.
           ++ done.
           ++ rewrite F2, F3, Hq4. by apply (QI_after s).
           ++ intros a Ha Hk. rewrite F8, Hkids in Hk. apply elem_of_singleton in Hk as ->. rewrite F7 in Ha. by apply (pi_0 s HP) in Ha.
           ++ intros. right. congruence.
           ++ rewrite F9. done.
           ++ intros _. split.
              ** rewrite F2, F3. intros j [Hj _]%elem_without. by apply Hall.
              ** left. rewrite F1, F8, Hc4, Hq4. done.
      * (* a child is gone *)
        destruct (Hup eq_refl) as (_ & H0 & _ & Hup4). destruct (Hun i Hi Hiu) as [Hie|?]; [|done].
        assert (Hi0 : i_own i <> 0) by (intros E; rewrite E in Hie; by apply (pi_0 s HP)).
        assert (Hk0 : 0 ∈ kids') by (unfold kids'; case_bool_decide; set_solver).
        assert (Hmap : map_after s i m !! 0 <> None).
        { unfold map_after. pose proof (Hup4 (i_own i) Hik Hi0). case_bool_decide; [by rewrite lookup_delete_ne|by rewrite lookup_insert_ne]. }
        assert (Hg : gone = false).
        { unfold gone. change (r_kids s2) with kids'. change (r_map s2) with (map_after s i m). rewrite !bool_decide_false; [done| |set_solver]. intros E. rewrite E, lookup_empty in Hmap. done. }
        assert (Hc4 : r_cm s4 = CmOn /\ r_q s4 = q) by (unfold s4, s3; rewrite Hg; done). destruct Hc4 as [Hc4 Hq4].
        assert (Hma : forall a, a <> i_own i -> map_after s i m !! a = r_map s !! a) by (intros a Ha; unfold map_after; case_bool_decide; [by rewrite lookup_delete_ne|by rewrite lookup_insert_ne]). split.
        -- done.
        -- rewrite F2, F3, Hq4. by apply (QI_after s).
        -- intros a. rewrite F7, F8, F1, F2, F3. intros Ha Hk. assert (Hk' : a ∈ r_kids s) by (unfold kids' in Hk; case_bool_decide; set_solver). destruct (Hend a Ha Hk') as [X1 X2]. split.
           ++ destruct (decide (a = i_own i)) as [->|Hn]; [|by rewrite Hma]. unfold map_after. unfold kids' in Hk. case_bool_decide; [set_solver|by rewrite lookup_insert].
           ++ intros j [Hj _]%elem_without. by apply X2.
        -- rewrite F2, F3, F7. intros j [Hj _]%elem_without Hju. left. destruct (Hun j Hj Hju); [done|congruence].
        -- intros _. rewrite F8, F1, Hq4. split_and!; try done. 
        -- congruence.
    + rewrite F8. unfold e2, kids'. destruct (bool_decide (delete (i_ty i) m = ∅)); cbn; [right; exists (i_own i); done|left; split; [done|by left]].
    + split; [by rewrite F6|]. rewrite F2. unfold e2. assert (X : r_points s ≡ₚ i :: without i (r_points s)) by (apply drop_perm; [apply HP|done|intros; by apply (pi_uid s HP)]). destruct (bool_decide (delete (i_ty i) m = ∅)); cbn; exact X.
  - assert (Hd : r_down s = true) by (destruct (r_down s) eqn:Hd; [done|]; destruct (Hup eq_refl) as (_ & _ & X & _); exfalso; apply X; set_solver).
    destruct (Hdn Hd) as [Hall [(_ & _ & _ & X)|(Hm & Hk & [(n & Hc & E)|[_ E]])]]; [exfalso; rewrite Eq in X; apply X; set_solver| |rewrite Eq in E; done].
    rewrite Eq in E. cbn in E. injection E as E. pose proof (no_map_no_points s HP Hm) as Hpts.
    assert (Hgen : forall c, ((exists n, c = CmOff (S n) /\ q = repeat QPlug (S n)) \/ c = CmGone /\ q = []) -> RI (set_q (set_cm s c) q)).
    { intros c Hcq. split; cbn.
      - by destruct HP.
      - assert (Hcf : confs q = []) by (destruct Hcq as [(n' & _ & ->)|[_ ->]]; [apply confs_plug|done]).
        rewrite Hpts. split; rewrite ?Hcf; [set_solver|set_solver|constructor].
      - done.
      - done.
      - congruence.
      - intros _. split; [done|]. right. done. }
    destruct n as [|n]; rewrite Hc.
    + eexists _, _. split; [done|]. split; [|by apply post_refl]. apply Hgen. right. done.
    + eexists _, _. split; [done|]. split; [|by apply post_refl]. apply Hgen. left. by exists n.
Qed.

Lemma step_all s o : RI s -> rok s o -> exists s' e, rstep s o = Ok (s', e) /\ RI s' /\ post s s' e.
Proof.
  intros HR Ho. destruct o; [by apply step_child|by apply step_build|by apply step_send|by apply step_end|by apply step_down|by apply step_conf].
Qed.
Definition EI (s : rstate) (ev : list revt) : Prop :=
  RI s /\ NoDup (removed ev) /\ (forall a, a ∈ removed ev -> a ∉ r_kids s /\ a ∈ r_seen s) /\ subbed ev ≡ₚ confirmed ev ++ r_points s.
Lemma EI_init : EI rinit [].
Proof. split; [apply RI_init|]. cbn. split; [constructor|]. split; [set_solver|done]. Qed.
Lemma EI_step s ev o : EI s ev -> rok s o -> exists s' e, rstep s o = Ok (s', e) /\ EI s' (ev ++ e).
Proof.
  intros (HR & H1 & H2 & H3) Ho. destruct (step_all s o HR Ho) as (s' & e & E & HR' & (Hk & Hs & Hp)). exists s', e. split; [done|]. split; [done|].
  unfold removed, subbed, confirmed in *. rewrite !omap_app. split_and!.
  - destruct Hk as [[-> _]|(a & -> & Ha & _)]; [by rewrite app_nil_r|]. apply NoDup_app. split; [done|]. split; [|apply NoDup_singleton]. intros b Hb ->%elem_of_list_singleton. by apply H2 in Hb as [? _].
  - intros a Ha. apply elem_of_app in Ha. destruct Hk as [[Hr [Hk|(b & Hb & Hk)]]|(b & Hr & Hb & Hk)]; rewrite Hr, ?elem_of_nil, ?elem_of_list_singleton in Ha; rewrite Hk.
    + destruct Ha as [Ha|[]]. destruct (H2 a Ha). set_solver.
    + destruct Ha as [Ha|[]]. destruct (H2 a Ha). set_solver.
    + pose proof (pi_seen s (ri_p s HR)). destruct Ha as [Ha| ->]; [destruct (H2 a Ha)|]; set_solver.
  - rewrite H3. rewrite <- !app_assoc. apply Permutation_app_head. rewrite Permutation_app_comm. exact Hp.
Qed.
Lemma runs ops : guarded rstep rok rinit ops -> exists s ev, run rstep rinit ops = Ok (s, ev) /\ EI s ev.
Proof. intros Hg. exact (run_safe_ev rstep rok EI EI_step ops rinit [] EI_init Hg). Qed.

(** All confirmations get delivered. *)
Definition left (s : rstate) : nat := (length (r_q s) + match r_cm s with CmOn => own_subs | _ => 0 end)%nat.
Lemma conf_less s s' e : r_q s <> [] -> rstep s OConf = Ok (s', e) -> (left s' < left s)%nat.
Proof.
  assert (Hb : forall x, left (base_deactivate x) = left x) by (intros x; unfold base_deactivate, left; destruct (r_cm x) eqn:E; cbn; rewrite ?E, ?app_length; unfold own_subs; cbn; lia).
  assert (Hr : forall x a x' e', remove_child x a = Ok (x', e') -> left x' = left x) by (intros x a x' e'; unfold remove_child; destruct (bool_decide _); [|done]; by intros [= <- _]).
  assert (Hc : forall x i x' e', cm_unsubscription x i = Ok (x', e') -> left x' = left x).
  { intros x i x' e'. unfold cm_unsubscription, amap_remove. destruct (r_cm x); [| |done]; (destruct (r_map x !! i_own i) as [m|]; [|done]); cbn [rbind];
      match goal with |- context [set_map x ?b] => generalize b; intros m' end;
      (destruct (r_map (set_map x m') !! i_own i); cbn [rbind]; [|destruct (remove_child _ _) as [[x1 e1]| |] eqn:E; try done; apply Hr in E; cbn [rbind]]);
      (intros [= <- _]; destruct (_ || _); rewrite ?Hb; done). }
  intros Hq. cbn. unfold conf. destruct (r_q s) as [|[i|] q] eqn:Eq; [done| |].
  - destruct (cm_unsubscription _ _) as [[s1 e1]| |] eqn:E; try done. apply Hc in E. cbn [rbind]. unfold lt_unsubscription. destruct (last _); [|done]. intros [= <- _].
    change (left s1 < left s)%nat. rewrite E. unfold left. cbn. rewrite Eq. cbn. lia.
  - destruct (r_cm s) as [|[|[|n]]|] eqn:Ec; try done; intros [= <- _]; unfold left; cbn; rewrite Eq, Ec; cbn; lia.
Qed.
Lemma conf_down s s' e : rstep s OConf = Ok (s', e) -> r_down s' = r_down s.
Proof.
  assert (Hb : forall x, r_down (base_deactivate x) = r_down x) by (intros x; unfold base_deactivate; by destruct (r_cm x)).
  assert (Hr : forall x a x' e', remove_child x a = Ok (x', e') -> r_down x' = r_down x) by (intros x a x' e'; unfold remove_child; destruct (bool_decide _); [|done]; by intros [= <- _]).
  assert (Hc : forall x i x' e', cm_unsubscription x i = Ok (x', e') -> r_down x' = r_down x).
  { intros x i x' e'. unfold cm_unsubscription, amap_remove. destruct (r_cm x); [| |done]; (destruct (r_map x !! i_own i) as [m|]; [|done]); cbn [rbind];
      match goal with |- context [set_map x ?b] => generalize b; intros m' end;
      (destruct (r_map (set_map x m') !! i_own i); cbn [rbind]; [|destruct (remove_child _ _) as [[x1 e1]| |] eqn:E; try done; apply Hr in E; cbn [rbind]]);
      (intros [= <- _]; destruct (_ || _); rewrite ?Hb; done). }
  cbn. unfold conf. destruct (r_q s) as [|[i|] q]; [by intros [= <- _]| |].
  - destruct (cm_unsubscription _ _) as [[s1 e1]| |] eqn:E; try done. apply Hc in E. cbn [rbind]. unfold lt_unsubscription. destruct (last _); [|done]. intros [= <- _]. exact E.
  - destruct (r_cm s) as [|[|[|n']]|]; try done; by intros [= <- _].
Qed.
Lemma drains n s : RI s -> (left s <= n)%nat -> exists k s' e, (k <= n)%nat /\ run rstep s (repeat OConf k) = Ok (s', e) /\ RI s' /\ r_q s' = [] /\ r_down s' = r_down s.
Proof.
  revert s. induction n as [|n IH]; intros s HR Hn.
  - exists 0%nat, s, []. split_and!; try done. unfold left in Hn. destruct (r_q s); [done|]. cbn in Hn. lia.
  - destruct (decide (r_q s = [])) as [Hq|Hq]; [exists 0%nat, s, []; split_and!; try done; lia|].
    destruct (step_conf s HR) as (s1 & e1 & E1 & HR1 & _). pose proof (conf_less s s1 e1 Hq E1). destruct (IH s1 HR1) as (k & s2 & e2 & Hk & E2 & HR2 & Hq2 & Hd2); [lia|].
    exists (S k), s2, (e1 ++ e2). split; [lia|]. split; [cbn [repeat run]; rewrite E1; cbn [rbind]; rewrite E2; done|]. split; [done|]. split; [done|]. rewrite Hd2.
    by apply (conf_down s s1 e1).
Qed.
