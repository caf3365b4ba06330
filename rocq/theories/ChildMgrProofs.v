From stdpp Require Import base list gmap.
From Verif Require Import Base ChildMgrModel ChildMgrSpec.
Open Scope N_scope.

(** * Steps are sequences of simple moves *)

(** Entry updates which concern neither identity, counters nor timers. *)
Record wk (a : N) (out : gset N) (e : list cevent) (i i' : cinfo) : Prop := {
  wk_init : ci_initialized i' = true -> ci_initialized i = true \/ EInitOk a ∈ e;
  wk_sid : ci_sid i' = ci_sid i;
  wk_cfg : ci_cfg i' = ci_cfg i;
  wk_actor : ci_actor i' = ci_actor i;
  wk_timer : ci_timer i' = ci_timer i;
  wk_att : ci_attempts i' = ci_attempts i;
  wk_last : ci_last i' = ci_last i;
  wk_active : ci_active i' = ci_active i;
  wk_shut : ci_shut i' = ci_shut i \/ (ci_shut i' <> SNone /\ (ci_shut i = SNone -> a = 0 \/ a ∈ out))
}.
Lemma wk_refl a out e i : wk a out e i i.
Proof. split; auto. Qed.

Record qrel (s : cstate) (e : list cevent) (s' : cstate) : Prop := {
  qr_map : forall a, match cm_map s !! a, cm_map s' !! a with
                     | Some i, Some i' => wk a (cm_shutout s) e i i'
                     | None, None => True
                     | _, _ => False
                     end;
  qr_spawning : cm_spawning s' = cm_spawning s;
  qr_timers : cm_timers s' = cm_timers s;
  qr_q : cm_spawnq s' = cm_spawnq s;
  qr_next : cm_next s' = cm_next s;
  qr_sids : cm_sids s' = cm_sids s;
  qr_tid : cm_tid s' = cm_tid s;
  qr_now : cm_now s <= cm_now s';
  qr_rank : 5 <= rank (cm_state s) -> 5 <= rank (cm_state s');
  qr_out : cm_shutout s' ⊆ cm_shutout s
}.

Definition quiet (e : cevent) : Prop :=
  match e with
  | ESpawner _ _ | EAttempt _ _ | EInstance _ _ _ | ECreated _ | ERemoved _ _ _ _ | EShutReq _ => False
  | _ => True
  end.

(** [F]: deadlines are computed from the current time. *)
Inductive move (F : Prop) : cstate -> list cevent -> cstate -> Prop :=
| mv_quiet s s' e : qrel s e s' -> Forall quiet e -> move F s e s'
| mv_create s : move F s [ECreated (cm_next s)] (create_child s None).1
| mv_spawn s cfg : move F s (spawn s cfg).2 (spawn s cfg).1
| mv_consume s a q : take_first a (cm_spawnq s) = Some q -> move F s [] (set_spawnq s q)
| mv_instance s a q i k :
    take_first a (cm_spawnq s) = Some q -> cm_map s !! a = Some i -> ci_active i = true -> ci_sid i = Some k ->
    move F s [EAttempt k (cm_now s); ECreated (cm_next s); EInstance k (cm_next s) (cm_now s)]
      (create_child (set_spawnq s q) (Some (a, spawn_attempt i (cm_now s)))).1
| mv_stop s a q i k :
    take_first a (cm_spawnq s) = Some q -> cm_map s !! a = Some i -> ci_active i = true -> ci_sid i = Some k ->
    move F s [EAttempt k (cm_now s)] (put_info (set_spawnq s q) a (i_active (spawn_attempt i (cm_now s)) false))
| mv_retry s a q i k :
    (F -> cm_loop s = cm_now s) ->
    take_first a (cm_spawnq s) = Some q -> cm_map s !! a = Some i -> ci_active i = true -> ci_sid i = Some k ->
    move F s [EAttempt k (cm_now s)]
      (let '(s2, id) := start_timer (set_spawnq s q) a (sc_period (ci_cfg i)) in
       put_info s2 a (i_timer (spawn_attempt i (cm_now s)) id))
| mv_erase s a i c abn ask :
    cm_map s !! a = Some i -> ci_actor i = Some c ->
    move F s [ERemoved c (ci_sid i) abn ask] (set_map s (delete a (cm_map s)))
| mv_again s a i c abn ask k i' :
    cm_map s !! a = Some i -> ci_actor i = Some c -> ci_sid i = Some k ->
    rank (cm_state s) <= 4 -> next_spawn i abn ask (cm_now s) = (i', DNow) ->
    move F s [ERemoved c (Some k) abn ask; ESpawnMsg a] (put_info (set_spawnq s (cm_spawnq s ++ [a])) a (i_actor i' None))
| mv_later s a i c abn ask k i' :
    (F -> cm_loop s = cm_now s) ->
    cm_map s !! a = Some i -> ci_actor i = Some c -> ci_sid i = Some k ->
    rank (cm_state s) <= 4 -> next_spawn i abn ask (cm_now s) = (i', DAfter) ->
    move F s [ERemoved c (Some k) abn ask]
      (let '(s2, id) := start_timer s a (sc_period (ci_cfg i)) in put_info s2 a (i_actor (i_timer i' id) None))
| mv_fire s id key i d :
    cm_spawning s !! id = Some key -> cm_map s !! key = Some i -> cm_timers s !! id = Some d -> d <= cm_now s ->
    rank (cm_state s) <= 4 ->
    move F s [ESpawnMsg key]
      (set_spawnq (put_info (set_timing s (delete id (cm_spawning s)) (delete id (cm_timers s)) (cm_tid s)) key (i_timer i 0))
                  (cm_spawnq s ++ [key]))
| mv_expire s id key i :
    cm_spawning s !! id = Some key -> cm_map s !! key = Some i ->
    move F s [] (put_info (set_timing s (delete id (cm_spawning s)) (delete id (cm_timers s)) (cm_tid s)) key (i_timer i 0))
| mv_ask s a i c :
    cm_map s !! a = Some i -> ci_actor i = Some c -> c <> 0 -> ci_shut i = SNone ->
    move F s [EShutReq c] (put_info (set_shutout s (cm_shutout s ∪ {[c]})) a (i_shut i SSent))
| mv_ask_all s i :
    cm_map s !! 0 = Some i -> ci_shut i <> SNone ->
    move F s (request_shutdown_all s).2 (request_shutdown_all s).1.

Inductive moves (F : Prop) : cstate -> list cevent -> cstate -> Prop :=
| ms_nil s : moves F s [] s
| ms_cons s e s1 e1 s2 : move F s e s1 -> moves F s1 e1 s2 -> moves F s (e ++ e1) s2.

Lemma moves_one F s e s' : move F s e s' -> moves F s e s'.
Proof. intros H. rewrite <-(app_nil_r e). econstructor; [exact H|constructor]. Qed.
Lemma moves_trans F s e s1 e1 s2 : moves F s e s1 -> moves F s1 e1 s2 -> moves F s (e ++ e1) s2.
Proof.
  induction 1 as [|s0 e0 s1' e1' s2' Hm Hms IH]; intros H2; [done|].
  rewrite <-(assoc_L (++)). econstructor; [done|]. by apply IH.
Qed.
Lemma moves_quiet F s s' e : qrel s e s' -> Forall quiet e -> moves F s e s'.
Proof. intros. by apply moves_one, mv_quiet. Qed.

(** The move at which an event happened. *)
Lemma moves_split F s ev s' : moves F s ev s' -> forall ev1 x ev2, ev = ev1 ++ x :: ev2 ->
  exists evA sA e1 e2 sB evB, moves F s evA sA /\ move F sA (e1 ++ x :: e2) sB /\ moves F sB evB s' /\
    ev1 = evA ++ e1 /\ ev2 = e2 ++ evB.
Proof.
  induction 1 as [s|s e s1 e1 s2 Hm Hms IH]; intros ev1 x ev2 Heq.
  - by destruct ev1.
  - apply app_eq_inv in Heq as [(k & H1 & H2)|(k & H1 & H2)].
    + destruct k as [|y k].
      * rewrite app_nil_r in H1. subst e. cbn in H2.
        destruct (IH [] x ev2 (eq_sym H2)) as (evA & sA & f1 & f2 & sB & evB & HA & HB & HC & HD & HE).
        exists (ev1 ++ evA), sA, f1, f2, sB, evB. split; [by econstructor|]. split; [done|]. split; [done|]. split; [|done].
        rewrite <-(assoc_L (++)). rewrite <-HD. by rewrite app_nil_r.
      * cbn in H2. inversion H2; subst. exists [], s, ev1, k, s1, e1. split; [constructor|]. done.
    + subst. destruct (IH k x ev2 eq_refl) as (evA & sA & f1 & f2 & sB & evB & HA & HB & HC & HD & HE).
      exists (e ++ evA), sA, f1, f2, sB, evB. split; [by econstructor|]. split; [done|]. split; [done|]. split; [|done].
      subst. by rewrite (assoc_L (++)).
Qed.

Lemma qrel_refl s e : qrel s e s.
Proof. split; try done. intros a. destruct (cm_map s !! a); [apply wk_refl|done]. Qed.

(** States which agree on everything the invariants speak about. *)
Definition same (s s' : cstate) : Prop :=
  cm_spawning s' = cm_spawning s /\ cm_timers s' = cm_timers s /\
  cm_spawnq s' = cm_spawnq s /\ cm_next s' = cm_next s /\ cm_sids s' = cm_sids s /\ cm_tid s' = cm_tid s /\
  cm_now s <= cm_now s' /\ (5 <= rank (cm_state s) -> 5 <= rank (cm_state s')) /\ cm_shutout s' ⊆ cm_shutout s.
Lemma qrel_same s e s' : cm_map s' = cm_map s -> same s s' -> qrel s e s'.
Proof.
  intros Hm (?&?&?&?&?&?&?&?&?). split; try done. intros a. rewrite Hm. destruct (cm_map s !! a); [apply wk_refl|done].
Qed.
Lemma qrel_put s e s' a i i' : cm_map s !! a = Some i -> wk a (cm_shutout s) e i i' ->
  cm_map s' = <[a := i']> (cm_map s) -> same s s' -> qrel s e s'.
Proof.
  intros Ha Hw Hm (?&?&?&?&?&?&?&?&?). split; try done. intros b. rewrite Hm.
  destruct (decide (a = b)) as [<-|]; [rewrite lookup_insert, Ha; done|].
  rewrite lookup_insert_ne by done. destruct (cm_map s !! b); [apply wk_refl|done].
Qed.

Lemma take_first_in a l q : take_first a l = Some q -> a ∈ l /\ (forall x, x ∈ q -> x ∈ l) /\ (NoDup l -> NoDup q /\ a ∉ q).
Proof.
  revert q; induction l as [|x l IH]; intros q H; simpl in H; [done|].
  destruct (N.eqb_spec x a) as [->|Hne].
  - inversion H; subst. split; [left|]. split; [by right|]. intros Hn. by inversion Hn.
  - destruct (take_first a l) as [r|] eqn:E; inversion H; subst. destruct (IH _ eq_refl) as (H1 & H2 & H3).
    split; [by right|]. split.
    + intros y Hy. apply elem_of_cons in Hy as [->|Hy]; [by left|]. right. auto.
    + intros Hn. inversion Hn; subst. destruct (H3 ltac:(done)) as [Hq Ha]. split.
      * constructor; [|done]. intros Hx. apply H2 in Hx. done.
      * intros Hx. apply elem_of_cons in Hx as [->|Hx]; done.
Qed.

Lemma take_first_other a l q b : take_first a l = Some q -> b ∈ l -> b <> a -> b ∈ q.
Proof.
  revert q; induction l as [|x l IH]; intros q H Hb Hne; simpl in H; [done|].
  destruct (N.eqb_spec x a) as [->|Hxa].
  - inversion H; subst. apply elem_of_cons in Hb as [?|?]; done.
  - destruct (take_first a l) as [r|] eqn:E; inversion H; subst.
    apply elem_of_cons in Hb as [->|Hb]; [left|right; by apply IH].
Qed.

Section proofs.
Context (has_parent : bool) (policy : spolicy) (sync : bool).
Notation cstep := (cstep has_parent policy sync).
Notation remove_child := (remove_child policy).

(** * State invariant *)
Record cinv (s : cstate) : Prop := {
  v_key : forall a i c, cm_map s !! a = Some i -> ci_actor i = Some c -> c = a;
  v_none : forall a i, cm_map s !! a = Some i -> ci_actor i = None -> is_Some (ci_sid i);
  v_att : forall a i, cm_map s !! a = Some i -> is_Some (ci_actor i) -> 1 <= ci_attempts i;
  v_max : forall a i, cm_map s !! a = Some i -> ci_active i = true -> 0 < sc_max (ci_cfg i) -> ci_attempts i < sc_max (ci_cfg i);
  v_never : forall a i, cm_map s !! a = Some i -> ci_active i = true -> sc_policy (ci_cfg i) = RNever -> ci_attempts i = 0;
  v_fresh : forall a i, cm_map s !! a = Some i -> a < cm_next s;
  v_sidlt : forall a i k, cm_map s !! a = Some i -> ci_sid i = Some k -> k < cm_sids s;
  v_sid : forall a b i j k, cm_map s !! a = Some i -> cm_map s !! b = Some j -> ci_sid i = Some k -> ci_sid j = Some k -> a = b;
  v_q : forall a, a ∈ cm_spawnq s -> exists i, cm_map s !! a = Some i /\ ci_actor i = None /\ ci_timer i = 0;
  v_qnd : NoDup (cm_spawnq s);
  v_timer : forall a i, cm_map s !! a = Some i -> ci_timer i <> 0 -> ci_actor i = None /\ cm_spawning s !! ci_timer i = Some a;
  v_spawning : forall id a, cm_spawning s !! id = Some a ->
    id <> 0 /\ id <= cm_tid s /\ is_Some (cm_timers s !! id) /\ exists i, cm_map s !! a = Some i /\ ci_timer i = id;
  v_timers : forall id, is_Some (cm_timers s !! id) -> is_Some (cm_spawning s !! id);
  v_self : forall i, cm_map s !! 0 = Some i -> ci_actor i = Some 0 /\ ci_sid i = None;
  v_next : 1 <= cm_next s
}.

Lemma cinv_init : cinv (cinit has_parent).
Proof.
  assert (Hl : forall a i, cm_map (cinit has_parent) !! a = Some i -> a = 0 /\ i = self_info).
  { intros a i H. cbn -[self_info] in H. apply lookup_singleton_Some in H as [<- <-]. done. }
  split; cbn -[self_info].
  - intros a i c H Hc. apply Hl in H as [-> ->]. cbn in Hc. congruence.
  - intros a i H Hn. by apply Hl in H as [-> ->].
  - intros a i H _. apply Hl in H as [-> ->]. done.
  - intros a i H _. by apply Hl in H as [-> ->].
  - intros a i H _. by apply Hl in H as [-> ->].
  - intros a i H. apply Hl in H as [-> ->]. done.
  - intros a i k H. by apply Hl in H as [-> ->].
  - intros a b i j k H1 H2. by apply Hl in H1 as [-> ->]; apply Hl in H2 as [-> ->].
  - intros a H. by apply elem_of_nil in H.
  - constructor.
  - intros a i H. by apply Hl in H as [-> ->].
  - intros id a H. by rewrite lookup_empty in H.
  - intros id H. rewrite lookup_empty in H. by destruct H.
  - intros i H. by apply Hl in H as [_ ->].
  - done.
Qed.

(** * Every step is a sequence of moves *)
Ltac gm := match goal with |- context [if ?b then _ else _] => destruct b end.
Ltac same := split_and!; try reflexivity; try done; try (apply N.le_refl); try set_solver.

Lemma cancel_init_eq s c : exists x, cancel_init s c = set_initout s x.
Proof.
  unfold cancel_init. destruct (cm_children s !! c) as [ch|].
  - destruct (ch_initreq ch); [by eexists|]. exists (cm_initout s). by destruct s.
  - exists (cm_initout s). by destruct s.
Qed.

Lemma quiet_self s : Forall quiet (self_shutdown s).
Proof. unfold self_shutdown. case_match; repeat constructor. Qed.
Lemma quiet_child s c : Forall quiet (child_shutdown s c).
Proof. unfold child_shutdown. repeat case_match; repeat constructor. Qed.
Lemma quiet_ic s : Forall quiet (init_continue s).
Proof. unfold init_continue. case_match; repeat constructor. Qed.
Lemma quiet_oc s a : Forall quiet (on_child_shutdown s a).
Proof. unfold on_child_shutdown. case_match; repeat constructor. Qed.

Lemma next_spawn_now i abn ask now i' d : next_spawn i abn ask now = (i', d) -> d = DNow \/ d = DAfter ->
  i' = i /\ ci_timer i = 0 /\ ci_active i = true /\ allowed (ci_cfg i) abn ask = true \/ sc_policy (ci_cfg i) = RNever /\ ci_active i = true /\ i' = i /\ ci_timer i = 0.
Proof.
  unfold next_spawn, allowed. intros H Hd.
  destruct (N.eqb_spec (ci_timer i) 0) as [Ht|Ht]; cbn [negb] in H; [|inversion H; subst; by destruct Hd].
  destruct (sc_escalate (ci_cfg i)) eqn:Ee; cbn [andb] in H.
  - destruct ((0 <? sc_max (ci_cfg i)) && (sc_max (ci_cfg i) <=? ci_attempts i)); [inversion H; subst; by destruct Hd|].
    destruct abn; cbn [andb] in H.
    + destruct (sc_policy (ci_cfg i)) eqn:Ep; cbn in H; destruct (ci_active i) eqn:Ea; cbn in H;
        try (inversion H; subst; by destruct Hd);
        try destruct ask; cbn in H; try (inversion H; subst; by destruct Hd);
        destruct (sc_period (ci_cfg i) <=? now - ci_last i); inversion H; subst; auto.
    + destruct (sc_policy (ci_cfg i)) eqn:Ep; cbn in H; destruct (ci_active i) eqn:Ea; cbn in H;
        try (inversion H; subst; by destruct Hd);
        try destruct ask; cbn in H; try (inversion H; subst; by destruct Hd);
        destruct (sc_period (ci_cfg i) <=? now - ci_last i); inversion H; subst; auto.
  - destruct (sc_policy (ci_cfg i)) eqn:Ep; cbn in H; destruct (ci_active i) eqn:Ea; cbn in H;
      try (inversion H; subst; by destruct Hd);
      destruct abn; cbn in H; try (inversion H; subst; by destruct Hd);
      try destruct ask; cbn in H; try (inversion H; subst; by destruct Hd);
      destruct (sc_period (ci_cfg i) <=? now - ci_last i); inversion H; subst; auto.
Qed.
Lemma next_spawn_same i abn ask now i' d : next_spawn i abn ask now = (i', d) -> d = DNow \/ d = DAfter -> i' = i.
Proof. intros H Hd. destruct (next_spawn_now _ _ _ _ _ _ H Hd) as [(?&?)|(?&?&?&?)]; done. Qed.

Lemma remove_child_moves (F : Prop) s a ask s' e : (F -> cm_loop s = cm_now s) ->
  remove_child s a ask = Ok (s', e) -> moves F s e s'.
Proof.
  intros HF H. unfold ChildMgrModel.remove_child in H. destruct (cm_map s !! a) as [i|] eqn:Hm; [|done].
  set (p1 := (if bool_decide (cm_state s = AInitializing) && negb (ci_started i) then
        if bool_decide (policy = PShutdownFailed) then (s, self_shutdown s)
        else if cm_initreq s then (set_initreq s false, [EInitError]) else (s, [])
      else (s, []))) in H.
  assert (H1 : (exists x, p1.1 = set_initreq s x) /\ Forall quiet p1.2).
  { assert (Hs : exists x, s = set_initreq s x) by (exists (cm_initreq s); by destruct s).
    unfold p1. repeat case_match; cbn; split; try done; try apply quiet_self; try (by eexists); repeat constructor. }
  destruct p1 as [s1 e1]. cbn [fst snd] in H1. destruct H1 as [[x Hx] Hq].
  destruct (ci_actor i) as [c|] eqn:Ha; [|done].
  destruct (cancel_init_eq s1 c) as [y Hy]. rewrite Hy in H. clear Hy. subst s1.
  set (s2 := set_initout (set_initreq s x) y) in *.
  set (abn := match cm_children s2 !! c with Some ch => default false (ch_abn ch) | None => false end) in H.
  assert (Hmv : moves F s e1 s2). { apply moves_quiet; [|done]. apply qrel_same; [done|same]. }
  assert (Hm2 : cm_map s2 !! a = Some i) by done.
  assert (HF2 : F -> cm_loop s2 = cm_now s2) by exact HF.
  clearbody s2 abn.
  assert (Hfin : forall s4 e3, move F s2 (ERemoved c (ci_sid i) abn ask :: e3) s4 ->
    forall e5, Forall quiet e5 ->
    moves F s (e1 ++ ERemoved c (ci_sid i) abn ask :: e3 ++ e5 ++ 
      (if bool_decide (cm_state s4 = AShuttingDown) && (active_actors s4 <=? 1)%nat then [EShutdownContinue] else []) ++ init_continue s4) s4).
  { intros s4 e3 Hmove e5 Hq5. eapply moves_trans; [done|]. rewrite app_comm_cons. eapply moves_trans; [by apply moves_one|].
    apply moves_quiet; [apply qrel_refl|]. apply Forall_app; split; [done|]. apply Forall_app; split; [|apply quiet_ic].
    gm; repeat constructor. }
  destruct ((rank (cm_state s2) <=? 4) && bool_decide (is_Some (ci_sid i))) eqn:Hc.
  - apply andb_true_iff in Hc as [Hr Hsid]. apply N.leb_le in Hr. apply bool_decide_eq_true in Hsid as [k Hk].
    destruct (next_spawn i abn ask (cm_now s2)) as [i' d] eqn:Hn. destruct d.
    + inversion H; subst; clear H. apply (Hfin _ [] ltac:(by eapply mv_erase) []). constructor.
    + inversion H; subst; clear H. refine (Hfin _ [ESpawnMsg a] _ [] _); [|constructor].
      rewrite Hk. eapply mv_again; done.
    + inversion H; subst; clear H. apply (Hfin _ [] ltac:(by eapply mv_erase) [EEscalate]). repeat constructor.
    + pose proof (next_spawn_same _ _ _ _ _ _ Hn (or_intror eq_refl)) as ->.
      destruct (start_timer s2 a (sc_period (ci_cfg i))) as [s3 id] eqn:Est. inversion H; subst; clear H.
      refine (Hfin _ [] _ [ESpawnTimer id] _); [|repeat constructor].
      pose proof (mv_later F s2 a i c abn ask k i HF2 Hm2 Ha Hk Hr Hn) as Hl. rewrite Est in Hl. rewrite Hk. exact Hl.
  - inversion H; subst; clear H. apply (Hfin _ [] ltac:(by eapply mv_erase) []). constructor.
Qed.

Lemma ask_all_map s : cm_map (request_shutdown_all s).1 = ask_child <$> cm_map s.
Proof.
  unfold request_shutdown_all. cbn. f_equal. generalize (omap asked (map_to_list (cm_map s)).*2).
  intros l. revert s. induction l as [|c l IH]; intros s; [done|]. cbn. rewrite IH.
  destruct (cancel_init_eq s c) as [x ->]. done.
Qed.
Lemma foldl_cancel l s : exists x, foldl cancel_init s l = set_initout s x.
Proof.
  revert s. induction l as [|c l IH]; intros s.
  - exists (cm_initout s). by destruct s.
  - cbn. destruct (cancel_init_eq s c) as [x ->]. destruct (IH (set_initout s x)) as [y ->]. by exists y.
Qed.

Lemma request_shutdown_moves F s a i s' e : cinv s -> cm_map s !! a = Some i ->
  request_shutdown has_parent s a i = Ok (s', e) -> moves F s e s'.
Proof.
  intros Hv Hm H. unfold request_shutdown in H.
  destruct (ci_shut i) eqn:Hsh; [|inversion H; subst; constructor..].
  destruct (ci_actor i) as [c|] eqn:Ha; [|done].
  destruct (cancel_init_eq s c) as [x Hx]. rewrite Hx in H. clear Hx.
  set (s1 := set_initout s x) in *.
  assert (Hq1 : forall e, qrel s e s1) by (intros; apply qrel_same; [done|same]).
  destruct (N.eqb_spec c 0) as [->|Hc].
  - assert (a = 0) as -> by (symmetry; by eapply v_key).
    assert (Hw : forall z, z <> SNone -> forall e, wk 0 (cm_shutout s) e i (i_shut i z)).
    { intros z Hz e0. split; try done; [by left|]. right. split; [done|]. by left. }
    destruct has_parent.
    + inversion H; subst. apply moves_quiet; [|apply quiet_self].
      eapply qrel_put with (i' := i_shut i SSent); [done|by apply Hw|done|same].
    + case_bool_decide as Hst.
      * inversion H; subst. apply moves_quiet; [|constructor].
        eapply qrel_put with (i' := i_shut i SSent); [done|by apply Hw|done|same].
      * set (s2 := set_state (put_info s1 0 (i_shut i SConfirmed)) AShuttingDown) in *.
        assert (Hq2 : forall e, qrel s e s2). { intros e0. eapply qrel_put with (i' := i_shut i SConfirmed); [done|by apply Hw|done|same]. }
        destruct (request_shutdown_all s2) as [s3 e3] eqn:E3. inversion H; subst; clear H.
        change (EShutdownStart :: e3 ++ [EShutdownContinue]) with ([EShutdownStart] ++ (e3 ++ [EShutdownContinue])).
        assert (Hm2 : cm_map s2 !! 0 = Some (i_shut i SConfirmed)) by apply lookup_insert.
        eapply moves_trans; [apply moves_quiet; [apply Hq2|repeat constructor]|].
        eapply moves_trans.
        { apply moves_one. pose proof (mv_ask_all F s2 (i_shut i SConfirmed) Hm2 ltac:(done)) as Hx. rewrite E3 in Hx. exact Hx. }
        apply moves_quiet; [|repeat constructor].
        pose proof (ask_all_map s2) as Hmm. rewrite E3 in Hmm. cbn in Hmm.
        eapply qrel_put with (a := 0) (i := i_shut i SConfirmed) (i' := i_shut i SSent); [..|same].
        -- cbn [fst]. rewrite Hmm. rewrite fmap_insert, lookup_insert. f_equal. unfold ask_child. cbn. by rewrite Ha.
        -- split; try done; [by left|by right].
        -- done.
  - inversion H; subst; clear H. rewrite <-(app_nil_l [EShutReq c]).
    eapply moves_trans; [apply moves_quiet; [apply Hq1|constructor]|].
    apply moves_one. by apply (mv_ask F s1 a i c).
Qed.

Lemma step_moves (F : Prop) s o s' e : cinv s -> (F -> fresh_clock s o) -> cstep s o = Ok (s', e) -> moves F s e s'.
Proof.
  intros Hv HF H. destruct o as [|cfg|a ok|a|a failed|a|a subs ask|a ask| | | |id|d| | |st|c ch|m ask];
    cbn -[create_child spawn on_spawn handle_start handle_shutdown] in H.
  - (* OCreate *) inversion H; subst. apply moves_one, mv_create.
  - (* OSpawn *) inversion H; subst. apply moves_one. exact (mv_spawn F s cfg).
  - (* OOnSpawn *)
    destruct (take_first a (cm_spawnq s)) as [q|] eqn:Eq; [|inversion H; subst; constructor].
    pose proof (take_first_in _ _ _ Eq) as (Hin & _ & _).
    destruct (v_q _ Hv _ Hin) as (i & Hm & Ha & Ht).
    destruct (v_none _ Hv _ _ Hm Ha) as [k Hk].
    unfold on_spawn in H. cbn [cm_map set_spawnq cm_now] in H. rewrite Hm in H.
    destruct (ci_active i) eqn:Eact; cbn [negb] in H; [|inversion H; subst; by apply moves_one, mv_consume with (a := a)].
    rewrite Hk in H. cbn [default] in H. rewrite (bool_decide_true (is_Some (Some k))) in H by done.
    rewrite andb_true_r in H. destruct ok.
    + apply moves_one. pose proof (mv_instance F s a q i k Eq Hm Eact Hk) as Hmv. cbn in Hmv. cbn in H. inversion H; subst. exact Hmv.
    + set (p1 := (if bool_decide (cm_state (set_spawnq s q) = AInitializing) && bool_decide (policy = PShutdownSelf) then
            if cm_initreq (set_spawnq s q) then (set_initreq (set_spawnq s q) false, [EInitError], false) else (set_spawnq s q, self_shutdown (set_spawnq s q), false)
          else (set_spawnq s q, [], bool_decide (sc_policy (ci_cfg i) = RAlways) || bool_decide (sc_policy (ci_cfg i) = RFailOnly)))) in H.
      assert (Hp : (p1.2 = true -> p1.1 = (set_spawnq s q, [])) /\ (exists y, p1.1.1 = set_initreq (set_spawnq s q) y) /\ Forall quiet p1.1.2).
      { assert (Hs : exists y, set_spawnq s q = set_initreq (set_spawnq s q) y) by (exists (cm_initreq s); by destruct s).
        unfold p1. repeat case_match; cbn; split_and!; try done; try apply quiet_self; try (by eexists); repeat constructor. }
      destruct p1 as [[s1 e1] try1]. cbn [fst snd] in Hp. destruct Hp as (Hp1 & [y Hy] & Hp3).
      destruct try1.
      * pose proof (Hp1 eq_refl) as Hpe. inversion Hpe; subst s1 e1. clear Hpe Hp1 Hp3.
        pose proof (mv_retry F s a q i k HF Eq Hm Eact Hk) as Hmv.
        cbn in H. cbn in Hmv. inversion H; subst; clear H.
        rewrite <-(app_nil_r [EAttempt k (cm_now s); _]).
        change ([EAttempt k (cm_now s); ESpawnTimer (cm_tid s + 1)]) with ([EAttempt k (cm_now s)] ++ [ESpawnTimer (cm_tid s + 1)]).
        rewrite app_nil_r. eapply moves_trans; [apply moves_one, Hmv|]. apply moves_quiet; [apply qrel_same; [done|same]|repeat constructor].
      * cbn [cm_map] in H. inversion H; subst; clear H.
        change (EAttempt k (cm_now s) :: e1) with ([EAttempt k (cm_now s)] ++ e1).
        eapply moves_trans; [by apply moves_one, mv_stop with (a := a)|].
        apply moves_quiet; [|done]. apply qrel_same; [done|same].
  - (* OOnCreate *)
    destruct (take_first a (cm_createq s)) as [q|] eqn:Eq; [|inversion H; subst; constructor].
    unfold on_create in H. cbn in H. destruct (cm_map s !! a); [|done]. inversion H; subst.
    apply moves_quiet; [|repeat constructor]. apply qrel_same; [done|same].
  - (* OOnInit *)
    case_bool_decide as Hin; [|inversion H; subst; constructor].
    unfold on_init in H. set (s1 := set_initout s (cm_initout s ∖ {[a]})) in *.
    assert (Hq : forall e, Forall quiet e -> moves F s e s1). { intros. apply moves_quiet; [|done]. apply qrel_same; [done|same]. }
    destruct failed.
    + destruct (bool_decide (cm_state s1 = AInitializing) && bool_decide (policy = PShutdownSelf)).
      * destruct (cm_initreq s1).
        -- destruct (a =? 0); inversion H; subst; [apply Hq, quiet_self|].
           apply moves_quiet; [|repeat constructor]. apply qrel_same; [done|same].
        -- inversion H; subst; apply Hq, quiet_self.
      * destruct (cm_map s1 !! a) as [i|]; [|inversion H; subst; apply Hq, quiet_self].
        destruct (ci_actor i) as [c|]; [|done]. inversion H; subst. apply Hq.
        destruct (c =? 0); [apply quiet_self|apply quiet_child].
    + destruct (cm_map s1 !! a) as [i|] eqn:Hm.
      * inversion H; subst; clear H. apply moves_quiet.
        -- eapply qrel_put with (i' := i_flags i true (ci_started i || if a =? 0 then rank (cm_state s1) <=? 4 else negb sync)); [exact Hm| |done|same].
           split; try done; [right; left|by left].
        -- constructor; [done|]. apply Forall_app; split; gm; repeat constructor; try apply quiet_ic.
      * inversion H; subst; clear H. apply Hq. gm; [apply quiet_ic|constructor].
  - (* OTrigger *)
    unfold on_shutdown_trigger in H. destruct (cm_map s !! a) as [i|] eqn:Hm; [|done].
    by eapply request_shutdown_moves.
  - (* OConfirm *)
    case_bool_decide as Hin; [|inversion H; subst; constructor].
    unfold on_shutdown_confirm in H. cbn [cm_map set_shutout] in H.
    destruct (cm_map s !! a) as [i|] eqn:Hm; [|done].
    set (s1 := put_info (set_shutout s (cm_shutout s ∖ {[a]})) a (i_shut i SConfirmed)) in *.
    assert (Hw : forall e, wk a (cm_shutout s) e i (i_shut i SConfirmed)).
    { intros e0. split; try done; [by left|]. right. split; [done|]. by right. }
    assert (Hq : forall e, qrel s e s1). { intros e0. eapply qrel_put; [done|apply Hw|done|same]. }
    destruct (ci_actor i) as [c|] eqn:Ha; [|done]. destruct subs.
    + inversion H; subst. apply moves_quiet; [|apply quiet_oc].
      eapply qrel_put; [done|apply Hw|done|same].
    + destruct (remove_child s1 a ask) as [[s2 e2]| |] eqn:Er; cbn in H; [|done..]. inversion H; subst.
      rewrite <-(app_nil_l (e2 ++ _)).
      eapply moves_trans; [apply moves_quiet; [apply Hq|constructor]|].
      eapply moves_trans; [eapply remove_child_moves; [exact HF|done]|].
      apply moves_quiet; [apply qrel_refl|apply quiet_oc].
  - (* OUnsubLast *)
    case_bool_decide as Hin; [|inversion H; subst; constructor].
    rewrite <-(app_nil_l e). eapply moves_trans; [apply moves_quiet; [|constructor]|].
    + instantiate (1 := set_unsub s (cm_unsub s ∖ {[a]})). apply qrel_same; [done|same].
    + eapply remove_child_moves; [exact HF|done].
  - (* OVoteInit *) inversion H; subst. apply moves_quiet; [apply qrel_refl|repeat constructor].
  - (* OVoteShutdown *)
    case_bool_decide as Hst; [|inversion H; subst; constructor].
    unfold handle_shutdown in H. destruct (cm_map s !! 0) as [i|] eqn:Hm; [|done].
    set (s1 := put_info s 0 (i_shut i SConfirmed)) in *.
    destruct (request_shutdown_all s1) as [s2 e2] eqn:E2. inversion H; subst; clear H.
    rewrite <-(app_nil_l (e2 ++ _)). eapply moves_trans; [apply moves_quiet; [|constructor]|eapply moves_trans].
    + instantiate (1 := s1). eapply qrel_put with (i' := i_shut i SConfirmed); [done| |done|same].
      split; try done; [by left|]. right. split; [done|]. by left.
    + apply moves_one. pose proof (mv_ask_all F s1 (i_shut i SConfirmed) ltac:(apply lookup_insert) ltac:(done)) as Hx.
      rewrite E2 in Hx. exact Hx.
    + apply moves_quiet; [apply qrel_refl|repeat constructor].
  - (* OHandleStart *)
    case_bool_decide as Hst; [|inversion H; subst; constructor].
    unfold handle_start in H. destruct sync; inversion H; subst; clear H.
    + apply moves_quiet.
      * split; cbn; try done.
        -- intros a. rewrite map_lookup_imap. destruct (cm_map s !! a) as [i|]; cbn; [|done].
           destruct (a =? 0); [apply wk_refl|]. by split; try done; left.
        -- rewrite Hst. by cbn.
      * constructor; [done|]. apply Forall_forall. intros x Hx. apply elem_of_list_omap in Hx as ([a i] & _ & Hx).
        destruct (a =? 0); inversion Hx; done.
    + apply moves_quiet; [|repeat constructor]. apply qrel_same; [done|]. same. rewrite Hst. by cbn.
  - (* OFire *)
    destruct (cm_timers s !! id) as [d|] eqn:Et; [|inversion H; subst; constructor].
    destruct (N.leb_spec d (cm_now s)) as [Hd|Hd]; [|inversion H; subst; constructor].
    unfold on_spawn_timer in H. destruct (cm_spawning s !! id) as [key|] eqn:Es; [|done]. cbn [cm_map set_timing] in H.
    destruct (cm_map s !! key) as [i|] eqn:Hm; [|done]. cbn [cm_state put_info set_map set_timing] in H.
    destruct (N.leb_spec (rank (cm_state s)) 4) as [Hr|Hr]; inversion H; subst; clear H.
    + apply moves_one. exact (mv_fire F s id key i d Es Hm Et Hd Hr).
    + apply moves_one. exact (mv_expire F s id key i Es Hm).
  - (* OTick *) inversion H; subst. apply moves_quiet; [|constructor]. apply qrel_same; [done|]. same. cbn. lia.
  - (* OLoopTime *) inversion H; subst. apply moves_quiet; [|constructor]. apply qrel_same; [done|same].
  - (* OInitRequest *) inversion H; subst. clear H. apply moves_quiet; [|constructor]. gm; (apply qrel_same; [done|same]).
  - (* OState *)
    destruct (sup_moves has_parent (cm_state s) st) eqn:Es; inversion H; subst; [|constructor].
    apply moves_quiet; [|constructor]. apply qrel_same; [done|]. same. cbn.
    destruct (cm_state s), st; cbn in *; try done; lia.
  - (* OChild *)
    destruct (cm_children s !! c) as [old|]; [|inversion H; subst; constructor].
    destruct (decide (child_moves old ch)); inversion H; subst; [|constructor].
    apply moves_quiet; [|constructor]. apply qrel_same; [done|same].
  - (* ODeactivate *)
    case_bool_decide as Hst; [|inversion H; subst; constructor].
    unfold deactivate in H. destruct (m && (active_actors s =? 1)%nat); [|inversion H; subst; constructor].
    eapply remove_child_moves; [exact HF|done].
Qed.

(** * Moves keep the state invariant *)
Lemma cinv_put s s' a i i' : cinv s -> cm_map s !! a = Some i -> cm_map s' = <[a := i']> (cm_map s) ->
  ci_sid i' = ci_sid i -> ci_cfg i' = ci_cfg i -> cm_next s' = cm_next s -> cm_sids s' = cm_sids s ->
  (ci_actor i' = ci_actor i \/ (ci_actor i' = None /\ is_Some (ci_sid i))) ->
  (is_Some (ci_actor i') -> 1 <= ci_attempts i') ->
  (ci_active i' = true -> 0 < sc_max (ci_cfg i') -> ci_attempts i' < sc_max (ci_cfg i')) ->
  (ci_active i' = true -> sc_policy (ci_cfg i') = RNever -> ci_attempts i' = 0) ->
  (forall b, b ∈ cm_spawnq s' -> exists j, cm_map s' !! b = Some j /\ ci_actor j = None /\ ci_timer j = 0) ->
  NoDup (cm_spawnq s') ->
  (forall b j, cm_map s' !! b = Some j -> ci_timer j <> 0 -> ci_actor j = None /\ cm_spawning s' !! ci_timer j = Some b) ->
  (forall id b, cm_spawning s' !! id = Some b ->
    id <> 0 /\ id <= cm_tid s' /\ is_Some (cm_timers s' !! id) /\ exists j, cm_map s' !! b = Some j /\ ci_timer j = id) ->
  (forall id, is_Some (cm_timers s' !! id) -> is_Some (cm_spawning s' !! id)) ->
  cinv s'.
Proof.
  intros Hv Ha Hm Hsid Hcfg Hnx Hsd Hact Hatt Hmax Hnev Hq Hqn Ht Hs Htt.
  assert (Hl : forall b j, cm_map s' !! b = Some j -> (b = a /\ j = i') \/ (b <> a /\ cm_map s !! b = Some j)).
  { intros b j H. rewrite Hm in H. apply lookup_insert_Some in H as [[-> ->]|[? ?]]; auto. }
  split; try done.
  - intros b j c Hb Hc. destruct (Hl _ _ Hb) as [[-> ->]|[? Hb']]; [|by eapply v_key].
    destruct Hact as [Hact|[Hact _]]; rewrite Hact in Hc; [by eapply v_key|done].
  - intros b j Hb Hc. destruct (Hl _ _ Hb) as [[-> ->]|[? Hb']]; [|by eapply v_none]. rewrite Hsid.
    destruct Hact as [Hact|[Hact ?]]; [|done]. rewrite Hact in Hc. by eapply v_none.
  - intros b j Hb. destruct (Hl _ _ Hb) as [[-> ->]|[? Hb']]; [done|]. by eapply v_att.
  - intros b j Hb. destruct (Hl _ _ Hb) as [[-> ->]|[? Hb']]; [done|]. by eapply v_max.
  - intros b j Hb. destruct (Hl _ _ Hb) as [[-> ->]|[? Hb']]; [done|]. by eapply v_never.
  - intros b j Hb. rewrite Hnx. destruct (Hl _ _ Hb) as [[-> ->]|[? Hb']]; by eapply v_fresh.
  - intros b j k Hb Hk. rewrite Hsd. destruct (Hl _ _ Hb) as [[-> ->]|[? Hb']]; eapply v_sidlt; try done. by rewrite <-Hsid.
  - intros b c j1 j2 k Hb Hc Hk1 Hk2.
    destruct (Hl _ _ Hb) as [[-> ->]|[? Hb']]; destruct (Hl _ _ Hc) as [[-> ->]|[? Hc']]; try done.
    + rewrite Hsid in Hk1. eapply (v_sid _ Hv); done.
    + rewrite Hsid in Hk2. eapply (v_sid _ Hv); done.
    + eapply (v_sid _ Hv); done.
  - intros j Hb. destruct (Hl _ _ Hb) as [[<- ->]|[? Hb']]; [|by eapply v_self].
    destruct (v_self _ Hv _ Ha) as [H1 H2]. rewrite Hsid. split; [|done].
    destruct Hact as [Hact|[_ Hx]]; [congruence|]. rewrite H2 in Hx. by destruct Hx.
  - rewrite Hnx. apply Hv.
Qed.

Lemma cinv_quiet s e s' : qrel s e s' -> cinv s -> cinv s'.
Proof.
  intros Hq Hv.
  assert (Hl : forall b j, cm_map s' !! b = Some j -> exists i, cm_map s !! b = Some i /\ wk b (cm_shutout s) e i j).
  { intros b j H. pose proof (qr_map _ _ _ Hq b) as Hb. rewrite H in Hb. destruct (cm_map s !! b); [eauto|done]. }
  assert (Hl' : forall b i, cm_map s !! b = Some i -> exists j, cm_map s' !! b = Some j /\ wk b (cm_shutout s) e i j).
  { intros b j H. pose proof (qr_map _ _ _ Hq b) as Hb. rewrite H in Hb. destruct (cm_map s' !! b); [eauto|done]. }
  split.
  - intros a j c Hj Hc. apply Hl in Hj as (i & Hi & W). rewrite (wk_actor _ _ _ _ _ W) in Hc. by eapply v_key.
  - intros a j Hj Hc. apply Hl in Hj as (i & Hi & W). rewrite (wk_actor _ _ _ _ _ W) in Hc. rewrite (wk_sid _ _ _ _ _ W). by eapply v_none.
  - intros a j Hj Hc. apply Hl in Hj as (i & Hi & W). rewrite (wk_actor _ _ _ _ _ W) in Hc. rewrite (wk_att _ _ _ _ _ W). by eapply v_att.
  - intros a j Hj Hc. apply Hl in Hj as (i & Hi & W). rewrite (wk_cfg _ _ _ _ _ W), (wk_att _ _ _ _ _ W).
    rewrite (wk_active _ _ _ _ _ W) in Hc. by eapply v_max.
  - intros a j Hj Hc. apply Hl in Hj as (i & Hi & W). rewrite (wk_cfg _ _ _ _ _ W), (wk_att _ _ _ _ _ W).
    rewrite (wk_active _ _ _ _ _ W) in Hc. by eapply v_never.
  - intros a j Hj. apply Hl in Hj as (i & Hi & W). rewrite (qr_next _ _ _ Hq). by eapply v_fresh.
  - intros a j k Hj Hk. apply Hl in Hj as (i & Hi & W). rewrite (qr_sids _ _ _ Hq). rewrite (wk_sid _ _ _ _ _ W) in Hk. by eapply v_sidlt.
  - intros a b i j k Hi Hj Hk1 Hk2. apply Hl in Hj as (j' & Hj & W2). apply Hl in Hi as (i' & Hi & W1).
    rewrite (wk_sid _ _ _ _ _ W1) in Hk1. rewrite (wk_sid _ _ _ _ _ W2) in Hk2. by eapply (v_sid _ Hv a b).
  - intros a Ha. rewrite (qr_q _ _ _ Hq) in Ha. destruct (v_q _ Hv _ Ha) as (i & Hi & Hn & Ht).
    apply Hl' in Hi as (j & Hj & W). exists j. by rewrite (wk_actor _ _ _ _ _ W), (wk_timer _ _ _ _ _ W).
  - rewrite (qr_q _ _ _ Hq). apply Hv.
  - intros a j Hj Ht. apply Hl in Hj as (i & Hi & W). rewrite (wk_timer _ _ _ _ _ W) in Ht |- *. rewrite (wk_actor _ _ _ _ _ W), (qr_spawning _ _ _ Hq).
    by eapply v_timer.
  - intros id a H. rewrite (qr_spawning _ _ _ Hq) in H. rewrite (qr_tid _ _ _ Hq), (qr_timers _ _ _ Hq).
    destruct (v_spawning _ Hv _ _ H) as (H1 & H2 & H3 & i & Hi & Ht). split_and!; try done.
    apply Hl' in Hi as (j & Hj & W). exists j. by rewrite (wk_timer _ _ _ _ _ W).
  - intros id. rewrite (qr_spawning _ _ _ Hq), (qr_timers _ _ _ Hq). apply Hv.
  - intros j Hj. apply Hl in Hj as (i & Hi & W). rewrite (wk_actor _ _ _ _ _ W), (wk_sid _ _ _ _ _ W). by eapply v_self.
  - rewrite (qr_next _ _ _ Hq). apply Hv.
Qed.

Lemma spawn_attempt_fields i now :
  ci_sid (spawn_attempt i now) = ci_sid i /\ ci_cfg (spawn_attempt i now) = ci_cfg i /\
  ci_actor (spawn_attempt i now) = ci_actor i /\ ci_timer (spawn_attempt i now) = 0 /\
  ci_attempts (spawn_attempt i now) = ci_attempts i + 1 /\ ci_last (spawn_attempt i now) = now /\ ci_shut (spawn_attempt i now) = SNone /\
  (ci_active (spawn_attempt i now) = true -> ci_active i = true /\ sc_policy (ci_cfg i) <> RNever /\
     (0 < sc_max (ci_cfg i) -> ci_attempts i + 1 < sc_max (ci_cfg i))).
Proof.
  split_and!; try done. cbn. intros H. apply andb_true_iff in H as [H1 H2]. split; [done|].
  apply negb_true_iff, orb_false_iff in H2 as [H2 H3]. apply bool_decide_eq_false in H3. split; [done|].
  intros Hm. apply N.ltb_lt in Hm. rewrite Hm in H2. cbn in H2. by apply N.leb_gt in H2.
Qed.
Global Arguments spawn_attempt : simpl never.

Lemma foldr_delete {A} (l : list N) (m : gmap N A) k : foldr delete m l !! k = if decide (k ∈ l) then None else m !! k.
Proof.
  induction l as [|x l IH]; cbn; [done|]. destruct (decide (x = k)) as [->|Hne].
  - rewrite lookup_delete. rewrite decide_True; [done|left].
  - rewrite lookup_delete_ne by done. rewrite IH. destruct (decide (k ∈ l)).
    + rewrite decide_True; [done|by right].
    + rewrite decide_False; [done|]. intros Hx. apply elem_of_cons in Hx as [?|?]; congruence.
Qed.

Lemma ask_all_eq s : exists x, request_shutdown_all s =
  (set_map (set_timing (set_shutout (set_initout s x) (cm_shutout s ∪ list_to_set (omap asked (map_to_list (cm_map s)).*2)))
     (foldr delete (cm_spawning s) (omap dropped_timer (map_to_list (cm_map s)).*2))
     (foldr delete (cm_timers s) (omap dropped_timer (map_to_list (cm_map s)).*2)) (cm_tid s))
     (ask_child <$> cm_map s), concat (ask_events s <$> (map_to_list (cm_map s)).*2)).
Proof.
  unfold request_shutdown_all. destruct (foldl_cancel (omap asked (map_to_list (cm_map s)).*2) s) as [x ->]. exists x. done.
Qed.

Lemma in_infos (s : cstate) i : i ∈ (map_to_list (cm_map s)).*2 <-> exists a, cm_map s !! a = Some i.
Proof.
  split.
  - intros H. apply elem_of_list_fmap in H as ([a j] & -> & H). exists a. by apply elem_of_map_to_list in H.
  - intros [a H]. apply elem_of_list_fmap. exists (a, i). split; [done|]. by apply elem_of_map_to_list.
Qed.

Lemma timer_none s a i : cinv s -> cm_map s !! a = Some i -> is_Some (ci_actor i) -> ci_timer i = 0.
Proof.
  intros Hv Hm [c Hc]. destruct (decide (ci_timer i = 0)); [done|]. destruct (v_timer _ Hv _ _ Hm ltac:(done)) as [? _]. congruence.
Qed.

Lemma ask_child_fields i : ci_sid (ask_child i) = ci_sid i /\ ci_cfg (ask_child i) = ci_cfg i /\
  ci_actor (ask_child i) = ci_actor i /\ ci_attempts (ask_child i) = ci_attempts i /\ ci_last (ask_child i) = ci_last i /\
  (ci_active (ask_child i) = true -> ci_active i = true) /\
  (is_Some (ci_actor i) -> ci_shut (ask_child i) <> SNone /\ ci_active (ask_child i) = ci_active i) /\
  (ci_shut (ask_child i) <> SNone -> ci_shut i <> SNone \/ is_Some (asked i)) /\
  (ci_actor i = None -> ci_timer (ask_child i) = 0) /\ (is_Some (ci_actor i) -> ci_timer (ask_child i) = ci_timer i).
Proof.
  unfold ask_child, asked. destruct (ci_actor i) eqn:Ha, (ci_shut i) eqn:Hs; cbn; split_and!; intros; try done; try congruence;
    try (by destruct H); try (destruct (N.eqb_spec (ci_timer i) 0); cbn; congruence); try (destruct (ci_timer i =? 0); cbn; try done; congruence);
    try (by left); try (by right); try (split; congruence); destruct (ci_timer i =? 0); cbn in *; left; congruence.
Qed.

Lemma ask_all_notimers s : cinv s -> cm_spawning (request_shutdown_all s).1 = ∅ /\ cm_timers (request_shutdown_all s).1 = ∅.
Proof.
  intros Hv. destruct (ask_all_eq s) as [x ->]. cbn.
  assert (Hin : forall id a, cm_spawning s !! id = Some a -> id ∈ omap dropped_timer (map_to_list (cm_map s)).*2).
  { intros id a H. destruct (v_spawning _ Hv _ _ H) as (H1 & _ & _ & i & Hi & Ht).
    apply elem_of_list_omap. exists i. split; [apply in_infos; by exists a|].
    destruct (v_timer _ Hv _ _ Hi) as [Hn _]; [lia|]. unfold dropped_timer. rewrite Hn.
    destruct (N.eqb_spec (ci_timer i) 0); [lia|]. by subst. }
  split; apply map_empty; intros id; rewrite foldr_delete; destruct (decide _) as [|Hno]; [done| |done|].
  - destruct (cm_spawning s !! id) as [a|] eqn:E; [|done]. by apply Hin in E.
  - destruct (cm_timers s !! id) as [d|] eqn:E; [|done]. exfalso.
    destruct (v_timers _ Hv id) as [a Ha]; [by eexists|]. by apply Hin in Ha.
Qed.

Lemma cinv_move F s e s' : move F s e s' -> cinv s -> cinv s'.
Proof.
  intros Hmv Hv. destruct Hmv as [s s' e Hq|s|s cfg|s a q Hq|s a q i k Hq Hm Hact Hk|s a q i k Hq Hm Hact Hk|s a q i k HF Hq Hm Hact Hk
    |s a i c abn ask Hm Hc|s a i c abn ask k i' Hm Hc Hk Hr Hn|s a i c abn ask k i' HF Hm Hc Hk Hr Hn
    |s id key i d Hs Hm Ht Hd Hr|s id key i Hs Hm|s a i c Hm Hc H0 Hsh|s i Hm Hsh].
  - by eapply cinv_quiet.
  - (* create *)
    set (n := spawn_attempt (CInfo None (SCfg RNormalOnly 15000000 0 false) (Some (cm_next s)) SNone 0 true 0 0 false false) (cm_now s)).
    assert (Hl : forall b j, <[cm_next s := n]> (cm_map s) !! b = Some j -> (b = cm_next s /\ j = n) \/ (b < cm_next s /\ cm_map s !! b = Some j)).
    { intros b j H. apply lookup_insert_Some in H as [[-> ->]|[? ?]]; [auto|]. right. split; [by eapply v_fresh|done]. }
    destruct (spawn_attempt_fields (CInfo None (SCfg RNormalOnly 15000000 0 false) (Some (cm_next s)) SNone 0 true 0 0 false false) (cm_now s))
      as (F1 & F2 & F3 & F4 & F5 & F6 & F7 & F8). cbn in F1, F2, F3, F5.
    fold n in F1, F2, F3, F4, F5, F6, F7, F8. cbn. fold n.
    clearbody n.
    split; cbn.
    + intros b j c Hb Hc. destruct (Hl _ _ Hb) as [[-> ->]|[? Hb']]; [congruence|by eapply v_key].
    + intros b j Hb Hc. destruct (Hl _ _ Hb) as [[-> ->]|[? Hb']]; [congruence|by eapply v_none].
    + intros b j Hb Hc. destruct (Hl _ _ Hb) as [[-> ->]|[? Hb']]; [lia|by eapply v_att].
    + intros b j Hb Hc. destruct (Hl _ _ Hb) as [[-> ->]|[? Hb']]; [by rewrite F2|by eapply v_max].
    + intros b j Hb Hc. destruct (Hl _ _ Hb) as [[-> ->]|[? Hb']]; [by rewrite F2|by eapply v_never].
    + intros b j Hb. destruct (Hl _ _ Hb) as [[-> ->]|[? Hb']]; lia.
    + intros b j k Hb Hk. destruct (Hl _ _ Hb) as [[-> ->]|[? Hb']]; [congruence|by eapply v_sidlt].
    + intros b c j1 j2 k Hb Hc Hk1 Hk2.
      destruct (Hl _ _ Hb) as [[-> ->]|[? Hb']]; [congruence|]; destruct (Hl _ _ Hc) as [[-> ->]|[? Hc']]; [congruence|].
      eapply (v_sid _ Hv); done.
    + intros b Hb. destruct (v_q _ Hv _ Hb) as (j & Hj & Hn & Ht). exists j. split; [|done].
      rewrite lookup_insert_ne; [done|]. apply (v_fresh _ Hv) in Hj. lia.
    + apply Hv.
    + intros b j Hb Ht. destruct (Hl _ _ Hb) as [[-> ->]|[? Hb']]; [done|by eapply v_timer].
    + intros id b H. destruct (v_spawning _ Hv _ _ H) as (H1 & H2 & H3 & i & Hi & Ht). split_and!; try done.
      exists i. split; [|done]. rewrite lookup_insert_ne; [done|]. apply (v_fresh _ Hv) in Hi. lia.
    + apply Hv.
    + intros j Hb. pose proof (v_next _ Hv). destruct (Hl _ _ Hb) as [[Hx ->]|[? Hb']]; [lia|by eapply v_self].
    + lia.
  - (* spawn *)
    cbn. set (n := CInfo (Some (cm_sids s)) cfg None SNone 0 true 0 0 false false).
    assert (Hl : forall b j, <[cm_next s := n]> (cm_map s) !! b = Some j -> (b = cm_next s /\ j = n) \/ (b < cm_next s /\ cm_map s !! b = Some j)).
    { intros b j H. apply lookup_insert_Some in H as [[-> ->]|[? ?]]; [auto|]. right. split; [by eapply v_fresh|done]. }
    split; cbn.
    + intros b j c Hb Hc. destruct (Hl _ _ Hb) as [[-> ->]|[? Hb']]; [done|by eapply v_key].
    + intros b j Hb Hc. destruct (Hl _ _ Hb) as [[-> ->]|[? Hb']]; [by eexists|by eapply v_none].
    + intros b j Hb Hc. destruct (Hl _ _ Hb) as [[-> ->]|[? Hb']]; [by destruct Hc|by eapply v_att].
    + intros b j Hb Hc. destruct (Hl _ _ Hb) as [[-> ->]|[? Hb']]; [done|by eapply v_max].
    + intros b j Hb Hc. destruct (Hl _ _ Hb) as [[-> ->]|[? Hb']]; [done|by eapply v_never].
    + intros b j Hb. destruct (Hl _ _ Hb) as [[-> ->]|[? Hb']]; lia.
    + intros b j k Hb Hk. destruct (Hl _ _ Hb) as [[-> ->]|[? Hb']]; [inversion Hk; lia|].
      pose proof (v_sidlt _ Hv _ _ _ Hb' Hk). lia.
    + intros b c j1 j2 k Hb Hc Hk1 Hk2.
      destruct (Hl _ _ Hb) as [[-> ->]|[? Hb']]; destruct (Hl _ _ Hc) as [[-> ->]|[? Hc']]; try done.
      * pose proof (v_sidlt _ Hv _ _ _ Hc' Hk2). inversion Hk1. lia.
      * pose proof (v_sidlt _ Hv _ _ _ Hb' Hk1). inversion Hk2. lia.
      * eapply (v_sid _ Hv); done.
    + intros b Hb. apply elem_of_app in Hb as [Hb|Hb].
      * destruct (v_q _ Hv _ Hb) as (j & Hj & Hn & Ht). exists j. split; [|done].
        rewrite lookup_insert_ne; [done|]. apply (v_fresh _ Hv) in Hj. lia.
      * apply elem_of_list_singleton in Hb as ->. exists n. by rewrite lookup_insert.
    + apply NoDup_app. split; [apply Hv|]. split; [|apply NoDup_singleton].
      intros b Hb. destruct (v_q _ Hv _ Hb) as (j & Hj & Hn & Ht). apply (v_fresh _ Hv) in Hj.
      rewrite elem_of_list_singleton. lia.
    + intros b j Hb Ht. destruct (Hl _ _ Hb) as [[-> ->]|[? Hb']]; [done|by eapply v_timer].
    + intros id b H. destruct (v_spawning _ Hv _ _ H) as (H1 & H2 & H3 & i & Hi & Ht). split_and!; try done.
      exists i. split; [|done]. rewrite lookup_insert_ne; [done|]. apply (v_fresh _ Hv) in Hi. lia.
    + apply Hv.
    + intros j Hb. pose proof (v_next _ Hv). destruct (Hl _ _ Hb) as [[Hx ->]|[? Hb']]; [lia|by eapply v_self].
    + lia.
  - (* consume *)
    destruct (take_first_in _ _ _ Hq) as (Hin & Hsub & Hnd). destruct Hv. split; cbn; try done.
    + intros b Hb. apply v_q0. auto.
    + by apply Hnd.
  - (* instance *)
    destruct (take_first_in _ _ _ Hq) as (Hin & Hsub & Hnd). destruct (Hnd (v_qnd _ Hv)) as [Hqn Haq].
    destruct (v_q _ Hv _ Hin) as (i0 & Hm0 & Hnone & Ht0). assert (i0 = i) as -> by congruence. clear Hm0.
    cbn. set (n := i_actor (spawn_attempt i (cm_now s)) (Some (cm_next s))).
    destruct (spawn_attempt_fields i (cm_now s)) as (F1 & F2 & F3 & F4 & F5 & F6 & F7 & F8).
    assert (G1 : ci_sid n = Some k) by (unfold n; cbn; congruence).
    assert (G2 : ci_cfg n = ci_cfg i) by (unfold n; cbn; congruence).
    assert (G3 : ci_actor n = Some (cm_next s)) by done.
    assert (G4 : ci_timer n = 0) by (unfold n; cbn; congruence).
    assert (G5 : ci_attempts n = ci_attempts i + 1) by (unfold n; cbn; congruence).
    change (ci_active (spawn_attempt i (cm_now s))) with (ci_active n) in F8.
    clearbody n.
    assert (Hl : forall b j, <[cm_next s := n]> (delete a (cm_map s)) !! b = Some j ->
       (b = cm_next s /\ j = n) \/ (b < cm_next s /\ b <> a /\ cm_map s !! b = Some j)).
    { intros b j H. apply lookup_insert_Some in H as [[-> ->]|[? H]]; [auto|].
      apply lookup_delete_Some in H as [? H]. right. split; [by eapply v_fresh|done]. }
    split; cbn.
    + intros b j c Hb Hc. destruct (Hl _ _ Hb) as [[-> ->]|[? [? Hb']]]; [congruence|by eapply v_key].
    + intros b j Hb Hc. destruct (Hl _ _ Hb) as [[-> ->]|[? [? Hb']]]; [congruence|by eapply v_none].
    + intros b j Hb Hc. destruct (Hl _ _ Hb) as [[-> ->]|[? [? Hb']]]; [lia|by eapply v_att].
    + intros b j Hb Hc. destruct (Hl _ _ Hb) as [[-> ->]|[? [? Hb']]]; [|by eapply v_max].
      rewrite G2, G5. by apply F8.
    + intros b j Hb Hc. destruct (Hl _ _ Hb) as [[-> ->]|[? [? Hb']]]; [|by eapply v_never].
      rewrite G2. by apply F8 in Hc as (_ & ? & _).
    + intros b j Hb. destruct (Hl _ _ Hb) as [[-> ->]|[? [? Hb']]]; lia.
    + intros b j k' Hb Hk'. destruct (Hl _ _ Hb) as [[-> ->]|[? [? Hb']]]; [|by eapply v_sidlt].
      eapply (v_sidlt _ Hv a i); congruence.
    + intros b c j1 j2 k' Hb Hc Hk1 Hk2.
      destruct (Hl _ _ Hb) as [[-> ->]|[? [? Hb']]]; destruct (Hl _ _ Hc) as [[-> ->]|[? [? Hc']]]; try done.
      * exfalso. assert (a = c); [|by subst]. eapply (v_sid _ Hv a c i j2 k); congruence.
      * exfalso. assert (a = b); [|by subst]. eapply (v_sid _ Hv a b i j1 k); congruence.
      * eapply (v_sid _ Hv); done.
    + intros b Hb. assert (b <> a) by (intros ->; done). destruct (v_q _ Hv b) as (j & Hj & Hn & Ht); [auto|].
      exists j. split; [|done]. rewrite lookup_insert_ne, lookup_delete_ne; [done|done|]. apply (v_fresh _ Hv) in Hj. lia.
    + done.
    + intros b j Hb Ht. destruct (Hl _ _ Hb) as [[-> ->]|[? [? Hb']]]; [done|by eapply v_timer].
    + intros id b H. destruct (v_spawning _ Hv _ _ H) as (H1 & H2 & H3 & j & Hj & Ht). split_and!; try done.
      exists j. split; [|done]. assert (a <> b) by (intros ->; congruence).
      rewrite lookup_insert_ne, lookup_delete_ne; [done|done|]. apply (v_fresh _ Hv) in Hj. lia.
    + apply Hv.
    + intros j Hb. pose proof (v_next _ Hv). destruct (Hl _ _ Hb) as [[Hx ->]|[? [? Hb']]]; [lia|by eapply v_self].
    + lia.
  - (* stop *)
    destruct (take_first_in _ _ _ Hq) as (Hin & Hsub & Hnd). destruct (Hnd (v_qnd _ Hv)) as [Hqn Haq].
    destruct (v_q _ Hv _ Hin) as (i0 & Hm0 & Hnone & Ht0). assert (i0 = i) as -> by congruence. clear Hm0.
    destruct (spawn_attempt_fields i (cm_now s)) as (F1 & F2 & F3 & F4 & F5 & F6 & F7 & F8).
    set (n := i_active (spawn_attempt i (cm_now s)) false).
    eapply (cinv_put s _ a i n); try done; cbn.
    + by left.
    + lia.
    + intros b Hb. assert (b <> a) by (intros ->; done). rewrite lookup_insert_ne by done. apply (v_q _ Hv); auto.
    + intros b j Hb Ht. apply lookup_insert_Some in Hb as [[<- <-]|[Hne Hb]]; [done|by eapply v_timer].
    + intros id b H. destruct (v_spawning _ Hv _ _ H) as (H1 & H2 & H3 & j & Hj & Ht). split_and!; try done.
      exists j. split; [|done]. rewrite lookup_insert_ne; [done|]. intros ->. congruence.
    + apply Hv.
  - (* retry *)
    destruct (take_first_in _ _ _ Hq) as (Hin & Hsub & Hnd). destruct (Hnd (v_qnd _ Hv)) as [Hqn Haq].
    destruct (v_q _ Hv _ Hin) as (i0 & Hm0 & Hnone & Ht0). assert (i0 = i) as -> by congruence. clear Hm0.
    destruct (spawn_attempt_fields i (cm_now s)) as (F1 & F2 & F3 & F4 & F5 & F6 & F7 & F8).
    cbn. set (id := cm_tid s + 1). set (n := i_timer (spawn_attempt i (cm_now s)) id).
    eapply (cinv_put s _ a i n); try done; cbn.
    + by left.
    + lia.
    + intros Hx. apply F8 in Hx as (_ & _ & Hx). exact Hx.
    + intros Hx. by apply F8 in Hx as (_ & ? & _).
    + intros b Hb. assert (b <> a) by (intros ->; done). rewrite lookup_insert_ne by done. apply (v_q _ Hv); auto.
    + intros b j Hb Ht. apply lookup_insert_Some in Hb as [[<- <-]|[Hne Hb]].
      * cbn. rewrite lookup_insert. split; [|done]. congruence.
      * destruct (v_timer _ Hv _ _ Hb Ht) as [H1 H2]. split; [done|]. rewrite lookup_insert_ne; [done|].
        destruct (v_spawning _ Hv _ _ H2) as (_ & ? & _). lia.
    + intros id' b H. apply lookup_insert_Some in H as [[<- <-]|[Hne H]].
      * split_and!; [lia|lia| |].
        -- rewrite lookup_insert. by eexists.
        -- exists n. by rewrite lookup_insert.
      * destruct (v_spawning _ Hv _ _ H) as (H1 & H2 & H3 & j & Hj & Ht). split_and!; [done|lia| |].
        -- by rewrite lookup_insert_ne.
        -- exists j. split; [|done]. rewrite lookup_insert_ne; [done|]. intros ->. congruence.
    + intros id' H. destruct (decide (id = id')) as [<-|]; [rewrite lookup_insert; by eexists|].
      rewrite lookup_insert_ne in * by done. by apply Hv.
  - (* erase *)
    assert (Ht0 : ci_timer i = 0). { destruct (decide (ci_timer i = 0)); [done|]. destruct (v_timer _ Hv _ _ Hm ltac:(done)) as [? _]. congruence. }
    assert (Hqa : a ∉ cm_spawnq s). { intros Hin. destruct (v_q _ Hv _ Hin) as (j & Hj & Hn & _). congruence. }
    assert (Hl : forall b j, delete a (cm_map s) !! b = Some j -> a <> b /\ cm_map s !! b = Some j).
    { intros b j H. by apply lookup_delete_Some in H. }
    split; cbn; try (by apply Hv).
    + intros b j c' Hb. apply Hl in Hb as [? Hb]. by eapply v_key.
    + intros b j Hb. apply Hl in Hb as [? Hb]. by eapply v_none.
    + intros b j Hb. apply Hl in Hb as [? Hb]. by eapply v_att.
    + intros b j Hb. apply Hl in Hb as [? Hb]. by eapply v_max.
    + intros b j Hb. apply Hl in Hb as [? Hb]. by eapply v_never.
    + intros b j Hb. apply Hl in Hb as [? Hb]. by eapply v_fresh.
    + intros b j k Hb. apply Hl in Hb as [? Hb]. by eapply v_sidlt.
    + intros b b' j j' k Hb Hb'. apply Hl in Hb as [? Hb]. apply Hl in Hb' as [? Hb']. by eapply v_sid.
    + intros b Hb. destruct (v_q _ Hv _ Hb) as (j & Hj & Hn). exists j. split; [|done]. rewrite lookup_delete_ne; [done|]. intros ->. done.
    + intros b j Hb. apply Hl in Hb as [? Hb]. by eapply v_timer.
    + intros id b H. destruct (v_spawning _ Hv _ _ H) as (H1 & H2 & H3 & j & Hj & Ht). split_and!; try done.
      exists j. split; [|done]. rewrite lookup_delete_ne; [done|]. intros ->. congruence.
    + intros j Hb. apply Hl in Hb as [? Hb]. by eapply v_self.
  - (* again *)
    pose proof (next_spawn_same _ _ _ _ _ _ Hn (or_introl eq_refl)) as ->.
    assert (Ht0 : ci_timer i = 0). { destruct (decide (ci_timer i = 0)); [done|]. destruct (v_timer _ Hv _ _ Hm ltac:(done)) as [? _]. congruence. }
    assert (Hqa : a ∉ cm_spawnq s). { intros Hin. destruct (v_q _ Hv _ Hin) as (j & Hj & Hx & _). congruence. }
    eapply (cinv_put s _ a i (i_actor i None)); try done; cbn.
    + right. split; [done|]. rewrite Hk. by eexists.
    + intros [? ?]; done.
    + by eapply v_max.
    + by eapply v_never.
    + intros b Hb. apply elem_of_app in Hb as [Hb|Hb].
      * destruct (v_q _ Hv _ Hb) as (j & Hj & Hx). exists j. split; [|done]. rewrite lookup_insert_ne; [done|]. intros ->. done.
      * apply elem_of_list_singleton in Hb as ->. exists (i_actor i None). rewrite lookup_insert. done.
    + apply NoDup_app. split; [apply Hv|]. split; [|apply NoDup_singleton]. intros b Hb. rewrite elem_of_list_singleton. intros ->. done.
    + intros b j Hb Ht. apply lookup_insert_Some in Hb as [[<- <-]|[Hne Hb]]; [done|by eapply v_timer].
    + intros id b H. destruct (v_spawning _ Hv _ _ H) as (H1 & H2 & H3 & j & Hj & Ht). split_and!; try done.
      exists j. split; [|done]. rewrite lookup_insert_ne; [done|]. intros ->. congruence.
    + apply Hv.
  - (* later *)
    pose proof (next_spawn_same _ _ _ _ _ _ Hn (or_intror eq_refl)) as ->.
    assert (Ht0 : ci_timer i = 0). { destruct (decide (ci_timer i = 0)); [done|]. destruct (v_timer _ Hv _ _ Hm ltac:(done)) as [? _]. congruence. }
    assert (Hqa : a ∉ cm_spawnq s). { intros Hin. destruct (v_q _ Hv _ Hin) as (j & Hj & Hx & _). congruence. }
    cbn. set (id := cm_tid s + 1).
    eapply (cinv_put s _ a i (i_actor (i_timer i id) None)); try done; cbn.
    + right. split; [done|]. rewrite Hk. by eexists.
    + intros [? ?]; done.
    + by eapply v_max.
    + by eapply v_never.
    + intros b Hb. destruct (v_q _ Hv _ Hb) as (j & Hj & Hx). exists j. split; [|done]. rewrite lookup_insert_ne; [done|]. intros ->. done.
    + apply Hv.
    + intros b j Hb Ht. apply lookup_insert_Some in Hb as [[<- <-]|[Hne Hb]].
      * cbn. by rewrite lookup_insert.
      * destruct (v_timer _ Hv _ _ Hb Ht) as [H1 H2]. split; [done|]. rewrite lookup_insert_ne; [done|].
        destruct (v_spawning _ Hv _ _ H2) as (_ & ? & _). lia.
    + intros id' b H. apply lookup_insert_Some in H as [[<- <-]|[Hne H]].
      * split_and!; [lia|lia| |].
        -- rewrite lookup_insert. by eexists.
        -- exists (i_actor (i_timer i id) None). by rewrite lookup_insert.
      * destruct (v_spawning _ Hv _ _ H) as (H1 & H2 & H3 & j & Hj & Ht). split_and!; [done|lia| |].
        -- by rewrite lookup_insert_ne.
        -- exists j. split; [|done]. rewrite lookup_insert_ne; [done|]. intros ->. congruence.
    + intros id' H. destruct (decide (id = id')) as [<-|]; [rewrite lookup_insert; by eexists|].
      rewrite lookup_insert_ne in * by done. by apply Hv.
  - (* fire *)
    destruct (v_spawning _ Hv _ _ Hs) as (H1 & H2 & H3 & j & Hj & Hjt). assert (j = i) as -> by congruence. clear Hj.
    destruct (v_timer _ Hv _ _ Hm ltac:(lia)) as [Hnone _].
    assert (Hqa : key ∉ cm_spawnq s). { intros Hin. destruct (v_q _ Hv _ Hin) as (j & Hj & _ & Hx). congruence. }
    eapply (cinv_put s _ key i (i_timer i 0)); try done; cbn.
    + by left.
    + rewrite Hnone. intros [? ?]; done.
    + by eapply v_max.
    + by eapply v_never.
    + intros b Hb. apply elem_of_app in Hb as [Hb|Hb].
      * destruct (v_q _ Hv _ Hb) as (j & Hj & Hx). exists j. split; [|done]. rewrite lookup_insert_ne; [done|]. intros ->. done.
      * apply elem_of_list_singleton in Hb as ->. exists (i_timer i 0). rewrite lookup_insert. done.
    + apply NoDup_app. split; [apply Hv|]. split; [|apply NoDup_singleton]. intros b Hb. rewrite elem_of_list_singleton. intros ->. done.
    + intros b j Hb Hx. apply lookup_insert_Some in Hb as [[<- <-]|[Hne Hb]]; [done|].
      destruct (v_timer _ Hv _ _ Hb Hx) as [G1 G2]. split; [done|]. rewrite lookup_delete_ne; [done|]. intros Hy. rewrite Hy in Hs. congruence.
    + intros id' b H. apply lookup_delete_Some in H as [Hne H].
      destruct (v_spawning _ Hv _ _ H) as (G1 & G2 & G3 & j & Hj & Hx). split_and!; try done.
      * by rewrite lookup_delete_ne.
      * exists j. split; [|done]. rewrite lookup_insert_ne; [done|]. intros ->. congruence.
    + intros id' [x H]. apply lookup_delete_Some in H as [Hne H]. rewrite lookup_delete_ne by done. apply Hv. by eexists.
  - (* expire *)
    destruct (v_spawning _ Hv _ _ Hs) as (H1 & H2 & H3 & j & Hj & Hjt). assert (j = i) as -> by congruence. clear Hj.
    destruct (v_timer _ Hv _ _ Hm ltac:(lia)) as [Hnone _].
    assert (Hqa : key ∉ cm_spawnq s). { intros Hin. destruct (v_q _ Hv _ Hin) as (j & Hj & _ & Hx). congruence. }
    eapply (cinv_put s _ key i (i_timer i 0)); try done; cbn.
    + by left.
    + rewrite Hnone. intros [? ?]; done.
    + by eapply v_max.
    + by eapply v_never.
    + intros b Hb. destruct (v_q _ Hv _ Hb) as (j & Hj & Hx). exists j. split; [|done]. rewrite lookup_insert_ne; [done|]. intros ->. done.
    + apply Hv.
    + intros b j Hb Hx. apply lookup_insert_Some in Hb as [[<- <-]|[Hne Hb]]; [done|].
      destruct (v_timer _ Hv _ _ Hb Hx) as [G1 G2]. split; [done|]. rewrite lookup_delete_ne; [done|]. intros Hy. rewrite Hy in Hs. congruence.
    + intros id' b H. apply lookup_delete_Some in H as [Hne H].
      destruct (v_spawning _ Hv _ _ H) as (G1 & G2 & G3 & j & Hj & Hx). split_and!; try done.
      * by rewrite lookup_delete_ne.
      * exists j. split; [|done]. rewrite lookup_insert_ne; [done|]. intros ->. congruence.
    + intros id' [x H]. apply lookup_delete_Some in H as [Hne H]. rewrite lookup_delete_ne by done. apply Hv. by eexists.
  - (* ask *)
    eapply (cinv_put s _ a i (i_shut i SSent)); try done; cbn; try (by apply Hv).
    + by left.
    + by eapply v_att.
    + by eapply v_max.
    + by eapply v_never.
    + intros b Hb. destruct (v_q _ Hv _ Hb) as (j & Hj & Hx). exists j. split; [|done]. rewrite lookup_insert_ne; [done|].
      intros ->. destruct Hx. congruence.
    + intros b j Hb Ht. apply lookup_insert_Some in Hb as [[<- <-]|[Hne Hb]]; [by apply (v_timer _ Hv _ _ Hm)|by eapply v_timer].
    + intros id b H. destruct (v_spawning _ Hv _ _ H) as (H1 & H2 & H3 & j & Hj & Ht). split_and!; try done.
      destruct (decide (a = b)) as [<-|]; [exists (i_shut i SSent); rewrite lookup_insert; split; [done|]; cbn; congruence|].
      exists j. by rewrite lookup_insert_ne.
  - (* ask all *)
    destruct (ask_all_notimers s Hv) as [Hs0 Ht0]. pose proof (ask_all_map s) as Hmm.
    destruct (ask_all_eq s) as [x Hx]. rewrite Hx in Hs0, Ht0, Hmm |- *. cbn [fst] in *.
    set (s' := set_map _ _) in *.
    assert (Hl : forall b j, cm_map s' !! b = Some j -> exists j0, cm_map s !! b = Some j0 /\ j = ask_child j0).
    { intros b j H. rewrite Hmm, lookup_fmap in H. destruct (cm_map s !! b) as [j0|]; inversion H. eauto. }
    split.
    + intros b j c Hb Hc. destruct (Hl _ _ Hb) as (j0 & Hj & ->); destruct (ask_child_fields j0) as (F1 & F2 & F3 & F4 & F5 & F6 & F7 & F8 & F9 & F10). rewrite F3 in Hc. by eapply v_key.
    + intros b j Hb. destruct (Hl _ _ Hb) as (j0 & Hj & ->); destruct (ask_child_fields j0) as (F1 & F2 & F3 & F4 & F5 & F6 & F7 & F8 & F9 & F10). rewrite F3, F1. by eapply v_none.
    + intros b j Hb. destruct (Hl _ _ Hb) as (j0 & Hj & ->); destruct (ask_child_fields j0) as (F1 & F2 & F3 & F4 & F5 & F6 & F7 & F8 & F9 & F10). rewrite F3, F4. by eapply v_att.
    + intros b j Hb. destruct (Hl _ _ Hb) as (j0 & Hj & ->); destruct (ask_child_fields j0) as (F1 & F2 & F3 & F4 & F5 & F6 & F7 & F8 & F9 & F10). rewrite F2, F4. intros Hc. apply F6 in Hc. by eapply v_max.
    + intros b j Hb. destruct (Hl _ _ Hb) as (j0 & Hj & ->); destruct (ask_child_fields j0) as (F1 & F2 & F3 & F4 & F5 & F6 & F7 & F8 & F9 & F10). rewrite F2, F4. intros Hc. apply F6 in Hc. by eapply v_never.
    + intros b j Hb. destruct (Hl _ _ Hb) as (j0 & Hj & ->); destruct (ask_child_fields j0) as (F1 & F2 & F3 & F4 & F5 & F6 & F7 & F8 & F9 & F10). by eapply v_fresh in Hj.
    + intros b j k Hb. destruct (Hl _ _ Hb) as (j0 & Hj & ->); destruct (ask_child_fields j0) as (F1 & F2 & F3 & F4 & F5 & F6 & F7 & F8 & F9 & F10). rewrite F1. intros Hk. by eapply v_sidlt in Hj.
    + intros b b' j1 j2 k Hb Hb' Hk1 Hk2. destruct (Hl _ _ Hb) as (j0 & Hj & ->). destruct (Hl _ _ Hb') as (j0' & Hj' & ->).
      rewrite (proj1 (ask_child_fields _)) in Hk1. rewrite (proj1 (ask_child_fields _)) in Hk2. by eapply (v_sid _ Hv b b').
    + intros b Hb. destruct (v_q _ Hv _ Hb) as (j & Hj & Hn & Ht). exists (ask_child j).
      rewrite Hmm, lookup_fmap, Hj. destruct (ask_child_fields j) as (F1 & F2 & F3 & F4 & F5 & F6 & F7 & F8 & F9 & F10).
      rewrite F3. auto.
    + apply Hv.
    + intros b j Hb. destruct (Hl _ _ Hb) as (j0 & Hj & ->); destruct (ask_child_fields j0) as (F1 & F2 & F3 & F4 & F5 & F6 & F7 & F8 & F9 & F10).
      intros Ht. exfalso. apply Ht. destruct (ci_actor j0) as [c|] eqn:Ha; [|auto].
      rewrite F10 by done. eapply timer_none; [done..|by rewrite Ha].
    + intros id b H. rewrite Hs0 in H. by rewrite lookup_empty in H.
    + intros id H. rewrite Ht0 in H. rewrite lookup_empty in H. by destruct H.
    + intros j Hb. destruct (Hl _ _ Hb) as (j0 & Hj & ->). destruct (ask_child_fields j0) as (F1 & F2 & F3 & _).
      rewrite F1, F3. by eapply v_self.
    + apply Hv.
Qed.

Lemma cinv_moves F s e s' : moves F s e s' -> cinv s -> cinv s'.
Proof. induction 1; [done|]. intros. apply IHmoves. by eapply cinv_move. Qed.

Lemma cinv_step s o s' e : cinv s -> cstep s o = Ok (s', e) -> cinv s'.
Proof. intros Hv H. eapply cinv_moves; [|done]. by eapply (step_moves False). Qed.

Lemma run_moves (F : Prop) ops s0 s' ev : cinv s0 -> run cstep s0 ops = Ok (s', ev) ->
  (F -> guarded cstep fresh_clock s0 ops) -> moves F s0 ev s'.
Proof.
  revert s0 ev. induction ops as [|o ops IH]; intros s0 ev Hv H HF; cbn [run] in H.
  - inversion H; subst. constructor.
  - destruct (cstep s0 o) as [[s1 e1]| |] eqn:E1; [|done..]. cbn [rbind] in H.
    destruct (run cstep s1 ops) as [[s2 e2]| |] eqn:E2; cbn in H; [|done..]. inversion H; subst.
    eapply moves_trans.
    + eapply step_moves; [done| |exact E1]. intros HFF. by apply HF.
    + eapply IH; [by eapply cinv_step|done|]. intros HFF. destruct (HF HFF) as [_ Hg]. by rewrite E1 in Hg.
Qed.
End proofs.
