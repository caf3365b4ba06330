(** The queues of the family and what one operation of the child manager adds to
    them. *)
From stdpp Require Import base list gmap.
From Verif Require Import Base ChildMgrModel ChildMgrSpec ChildMgrProofs ChildMgrTrace ChildMgrFacts FamilyModel FamilySteps.
Open Scope N_scope.

(** Messages from child [c] to the supervisor, and to child [c]. *)
Definition upm (c : N) (m : fmsg) : bool :=
  match m with MTrigger a | MInitResp a _ | MShutResp a => a =? c | _ => false end.
Definition dnm (c : N) (m : fmsg) : bool :=
  match m with MCreate a | MInitReq a | MShutReq a | MBye a => a =? c | _ => false end.
Definition UP (s : fstate) (c : N) : list fmsg := List.filter (upm c) (f_q s ++ upl s c).
Definition DN (s : fstate) (c : N) : list fmsg := List.filter (dnm c) (downl s c ++ f_q s).
Definition known (s : fstate) (c : N) : Prop := is_Some (cm_children (f_cm s) !! c).

Lemma in_filter {A} (p : A -> bool) x l : x ∈ List.filter p l <-> x ∈ l /\ p x = true.
Proof. rewrite !elem_of_list_In. apply filter_In. Qed.
Lemma filter_none {A} (p : A -> bool) l : (forall x, x ∈ l -> p x = false) -> List.filter p l = [].
Proof.
  induction l as [|x l IH]; intros H; [done|]. cbn. rewrite (H x) by left. apply IH. intros y Hy. apply H. by right.
Qed.

Section fold.
Context (hp : bool) (policy : spolicy) (sync : bool).
Notation step := (cstep hp policy sync).
Notation react := (react hp).
Notation manage := (manage hp policy sync).

(** What an event adds to the queue, and to the messages of a foreign child. *)
Definition qof (F : gset N) (x : cevent) : list fmsg :=
  match x with
  | ESpawnMsg a => [MSpawn a]
  | EInitReq c => [MInitReq c]
  | EShutReq c => [MShutReq c]
  | ESelfShutdown => if hp then [] else [MTrigger 0]
  | EEscalate => [MTrigger 0]
  | EInitError => if hp then [] else [MInitResp 0 true]
  | EChildShutdown c => if decide (c ∈ F) then [] else [MTrigger c]
  | _ => []
  end.
Definition uof (F : gset N) (c : N) (x : cevent) : list fmsg :=
  match x with
  | EChildShutdown d => if decide (d ∈ F) then (if decide (d = c) then [MTrigger c] else []) else []
  | _ => []
  end.
Definition initreqs (e : list cevent) : list N := omap (fun x => match x with EInitReq a => Some a | _ => None end) e.
Lemma in_initreqs e c : c ∈ initreqs e <-> EInitReq c ∈ e.
Proof.
  unfold initreqs. rewrite elem_of_list_omap. split.
  - intros (x & Hx & H). destruct x; inversion H; subst. done.
  - intros H. by exists (EInitReq c).
Qed.

Record grown (F : gset N) (s : fstate) (e : list cevent) (s' : fstate) : Prop := {
  g_cm : f_cm s' = f_cm s;
  g_q : f_q s' = f_q s ++ concat (qof F <$> e);
  g_up : forall c, upl s' c = upl s c ++ concat (uof F c <$> e);
  g_down : f_down s' = f_down s;
  g_foreign : f_foreign s' = f_foreign s;
  g_init : forall c, c ∈ f_init s' <-> c ∈ f_init s \/ EInitReq c ∈ e;
  g_shut : forall c, c ∈ f_shut s' <-> c ∈ f_shut s \/ EShutReq c ∈ e;
  g_bye : f_bye s' = f_bye s;
  g_phase : f_phase s' = f_phase s \/ (f_phase s' = PAgreed /\ exists b, EVoteShutdown b ∈ e)
}.

Lemma grown_one fo ea s x : (forall c, x <> ECreated c) -> grown (f_foreign s) s [x] (react fo ea s x).
Proof.
  intros Hx.
  assert (Hn : forall y : cevent, forall c, x <> y -> (c ∈ f_init s <-> c ∈ f_init s \/ y ∈ [x])).
  { intros y c Hy. split; [by left|]. intros [?|H]; [done|]. apply elem_of_list_singleton in H. congruence. }
  assert (Hn' : forall y : cevent, forall c, x <> y -> (c ∈ f_shut s <-> c ∈ f_shut s \/ y ∈ [x])).
  { intros y c Hy. split; [by left|]. intros [?|H]; [done|]. apply elem_of_list_singleton in H. congruence. }
  assert (Hq : forall l : list fmsg, l = l ++ []) by (intros; by rewrite app_nil_r).
  assert (Hu : forall s' F c, f_up s' = f_up s -> concat (uof F c <$> [x]) = [] -> upl s' c = upl s c ++ concat (uof F c <$> [x])).
  { intros s' F c H1 H2. rewrite H2, app_nil_r. unfold upl. by rewrite H1. }
  destruct x as [| | |c| | | | | | | | | | | |c| | | |b|b]; try (by destruct (Hx c)); unfold FamilyModel.react; try (destruct hp eqn:Ehp).
  all: try (split; cbn [f_cm f_q f_up f_down f_foreign f_init f_shut f_bye f_phase push set_q set_init set_shut set_phase];
     [done|unfold qof; cbn; rewrite ?Ehp; cbn; try (by rewrite ?app_nil_r)|try (intros; by apply Hu)|try done|try done|try (intros; by apply Hn)|try (intros; by apply Hn')|try done|try (by left)]).
  all: try (intros d; rewrite elem_of_union, elem_of_singleton, elem_of_list_singleton; split; (intros [?|H]; [by left|right; congruence])).
  all: try (destruct b; (split; cbn; first [done|by rewrite app_nil_r|by intros; rewrite app_nil_r|by intros; apply Hn|by intros; apply Hn'|by left|
    right; split; [done|]; eexists; left])).
  all: unfold from; destruct (decide (c ∈ f_foreign s)) as [Hf|Hf]; split; cbn;
    first [ done | by intros; apply Hn | by intros; apply Hn' | by left | by rewrite decide_True, ?app_nil_r by done
          | by rewrite decide_False, ?app_nil_r by done | idtac ].
  all: try (intros d; rewrite decide_False by done; cbn; by rewrite app_nil_r).
  all: intros d; rewrite decide_True by done; unfold upl; cbn; rewrite app_nil_r;
    destruct (decide (c = d)) as [<-|Hne]; [by rewrite lookup_insert|by rewrite lookup_insert_ne, app_nil_r].
Qed.

Lemma grown_nil F s : grown F s [] s.
Proof.
  split; cbn; try done; try (intros; by rewrite app_nil_r).
  - intros c. split; [by left|]. intros [?|H]; [done|]. by apply elem_of_nil in H.
  - intros c. split; [by left|]. intros [?|H]; [done|]. by apply elem_of_nil in H.
  - by left.
Qed.

Lemma grown_trans F s e1 s1 e2 s2 : grown F s e1 s1 -> grown F s1 e2 s2 -> grown F s (e1 ++ e2) s2.
Proof.
  intros [A1 A2 A3 A4 A5 A6 A7 A8 A9] [B1 B2 B3 B4 B5 B6 B7 B8 B9]. split; try congruence.
  - by rewrite B2, A2, fmap_app, concat_app, (assoc_L (++)).
  - intros c. by rewrite B3, A3, fmap_app, concat_app, (assoc_L (++)).
  - intros c. rewrite B6, A6, elem_of_app. tauto.
  - intros c. rewrite B7, A7, elem_of_app. tauto.
  - destruct B9 as [B9|[B9 [b Hb]]].
    + destruct A9 as [A9|[A9 [b Hb]]]; [left; congruence|]. right. split; [congruence|]. exists b. apply elem_of_app. by left.
    + right. split; [done|]. exists b. apply elem_of_app. by right.
Qed.

Lemma fold_grown fo ea e : (forall c, ECreated c ∉ e) -> forall s, grown (f_foreign s) s e (foldl (react fo ea) s e).
Proof.
  induction e as [|x e IH]; intros Hx s; [apply grown_nil|]. cbn [foldl].
  assert (H1 : grown (f_foreign s) s [x] (react fo ea s x)). { apply grown_one. intros c ->. apply (Hx c). left. }
  apply (grown_trans _ _ [x] (react fo ea s x)); [done|]. rewrite <-(g_foreign _ _ _ _ H1). apply IH. intros c Hc. apply (Hx c). by right.
Qed.

(** A child is created by one of two operations. *)
Lemma created_ops s o s' e c : eff s o s' e -> step s o = Ok (s', e) -> ECreated c ∈ e ->
  c = cm_next s /\ exists e1 e2, e = e1 ++ ECreated c :: e2 /\
    (forall fo ea t, foldl (react fo ea) t e1 = t) /\ (forall fo ea t, foldl (react fo ea) t e2 = t) /\
    Forall (fun x => idle x = true) (e1 ++ e2) /\ (o = OCreate \/ exists a ok, o = OOnSpawn a ok).
Proof.
  intros He H Hc. pose proof (ef_kind _ _ _ _ He) as Hk. rewrite Forall_forall in Hk. destruct (Hk _ Hc) as [-> Ho]. split; [done|].
  destruct Ho as [->|(a & ok & ->)].
  - cbn in H. inversion H; subst. exists [], []. split; [done|]. split; [done|]. split; [done|]. split; [constructor|by left].
  - cbn -[on_spawn] in H. destruct (take_first a (cm_spawnq s)) as [q|] eqn:Hq; [|inversion H; subst; by apply elem_of_nil in Hc].
    unfold on_spawn in H. destruct (cm_map (set_spawnq s q) !! a) as [i|] eqn:Hm; [|done].
    destruct (negb (ci_active i)); [inversion H; subst; by apply elem_of_nil in Hc|].
    destruct (ok && bool_decide (is_Some (ci_sid i))) eqn:Hmade.
    + cbn in H. inversion H; subst. eexists [_], [_]. split; [reflexivity|]. split; [done|]. split; [done|]. split; [repeat constructor|right; eauto].
    + exfalso. match type of H with match ?p with _ => _ end = _ => set (p2 := p) in H end.
      assert (Hp2 : forall x, x ∈ p2.1.2 -> idle x = true).
      { intros x Hx. assert (Hi : Forall (fun x => idle x = true) p2.1.2).
        { unfold p2. repeat match goal with |- context [if ?b then _ else _] => destruct b end; cbn; try apply idle_self; repeat constructor. }
        rewrite Forall_forall in Hi. auto. }
      destruct p2 as [[s1 e1] []]; cbn in H, Hp2; inversion H; subst; clear H.
      * apply elem_of_cons in Hc as [?|Hc]; [done|]. apply elem_of_app in Hc as [Hc|Hc]; [by apply Hp2 in Hc|by apply elem_of_list_singleton in Hc].
      * apply elem_of_cons in Hc as [?|Hc]; [done|]. by apply Hp2 in Hc.
Qed.

(** Nothing is known of a child which does not exist; a child of the same
    locality has no queues of its own. *)
Definition clean (s : fstate) : Prop := forall c, ~ known s c -> c <> 0 ->
  (forall m, m ∈ f_q s -> upm c m = false /\ dnm c m = false) /\ upl s c = [] /\ downl s c = [] /\
  c ∉ f_foreign s /\ c ∉ f_init s /\ c ∉ f_shut s /\ c ∉ f_bye s.
Definition local_empty (s : fstate) : Prop := forall c, c ∉ f_foreign s -> upl s c = [] /\ downl s c = [].

(** Messages which the child manager puts to the queue. *)
Definition sent (fo : bool) (e : list cevent) (s : fstate) (m : fmsg) : Prop :=
  match m with
  | MSpawn a => True
  | MCreate c => ECreated c ∈ e
  | MInitReq c => EInitReq c ∈ e
  | MShutReq c => EShutReq c ∈ e
  | MTrigger a => (a = 0 /\ (ESelfShutdown ∈ e \/ EEscalate ∈ e)) \/ (a ∉ f_foreign s /\ EChildShutdown a ∈ e) \/ (fo = false /\ ECreated a ∈ e)
  | MInitResp c failed => c = 0
  | _ => False
  end.

Record mres (fo ea : bool) (s : fstate) (o : cop) (e : list cevent) (s' : fstate) : Prop := {
  m_step : step (f_cm s) o = Ok (f_cm s', e);
  m_q : exists l, f_q s' = f_q s ++ l /\ Forall (sent fo e s) l;
  m_creates : omap (fun m => match m with MCreate c => Some c | _ => None end) (f_q s') =
              omap (fun m => match m with MCreate c => Some c | _ => None end) (f_q s) ++ created e;
  m_spawns : omap (fun m => match m with MSpawn c => Some c | _ => None end) (f_q s') =
             omap (fun m => match m with MSpawn c => Some c | _ => None end) (f_q s) ++ spawnmsgs e;
  m_up : forall c, known s c -> c <> 0 -> exists x, UP s' c = UP s c ++ x /\ Forall (eq (MTrigger c)) x /\ (x = [] \/ EChildShutdown c ∈ e);
  m_upl : forall c m, m ∈ upl s' c -> m ∈ upl s c \/ m = MTrigger c;
  m_upln : forall c, upl s c <> [] -> upl s' c <> [];
  m_dn : forall c, known s c -> c <> 0 -> EShutReq c ∉ e -> EInitReq c ∉ e -> DN s' c = DN s c;
  m_dni : forall c, known s c -> c <> 0 -> e = [EInitReq c] -> DN s' c = DN s c ++ [MInitReq c];
  m_dns : forall c, known s c -> c <> 0 -> EShutReq c ∈ e -> EInitReq c ∉ e -> NoDup (shutreqs e) -> DN s' c = DN s c ++ [MShutReq c];
  m_new : forall c, ECreated c ∈ e -> c <> 0 -> DN s' c = [MCreate c] /\ (UP s' c = [] \/ UP s' c = [MTrigger c]) /\
            (c ∈ f_foreign s' -> MTrigger c ∉ f_q s') /\ c ∉ f_init s' /\ c ∉ f_bye s';
  m_down : f_down s' = f_down s;
  m_foreign : forall c, known s c -> c ∈ f_foreign s' <-> c ∈ f_foreign s;
  m_foreign' : forall c, c ∈ f_foreign s' -> c ∈ f_foreign s \/ ECreated c ∈ e;
  m_init : forall c, c ∈ f_init s' -> (c ∈ f_init s \/ EInitReq c ∈ e) /\ c ∈ cm_initout (f_cm s');
  m_shut : forall c, c ∈ f_shut s' <-> c ∈ f_shut s \/ EShutReq c ∈ e;
  m_bye : f_bye s' = f_bye s;
  m_phase : f_phase s' = f_phase s \/ (f_phase s' = PAgreed /\ exists b, EVoteShutdown b ∈ e);
  m_clean : clean s';
  m_local : local_empty s'
}.

Lemma concat_filter p F (e : list cevent) : (forall x, x ∈ e -> List.filter p (qof F x) = []) -> List.filter p (concat (qof F <$> e)) = [].
Proof.
  induction e as [|x e IH]; intros H; [done|]. cbn. rewrite List.filter_app, (H x) by left. apply IH. intros y Hy. apply H. by right.
Qed.

Lemma omap_concat {B} (f : fmsg -> option B) (g : cevent -> option B) F e :
  (forall x, x ∈ e -> omap f (qof F x) = match g x with Some b => [b] | None => [] end) -> omap f (concat (qof F <$> e)) = omap g e.
Proof.
  induction e as [|x e IH]; intros H; [done|]. cbn. rewrite omap_app, (H x), IH by (try left; intros y Hy; apply H; by right). by destruct (g x).
Qed.

Lemma qof_sent fo F (e : list cevent) (s : fstate) : F = f_foreign s -> Forall (sent fo e s) (concat (qof F <$> e)).
Proof.
  intros ->. apply Forall_forall. intros m Hm. apply elem_of_list_In, in_concat in Hm as (l & Hl & Hm).
  apply elem_of_list_In in Hl, Hm. apply elem_of_list_fmap in Hl as (x & -> & Hx).
  destruct x; cbn in Hm; try (by apply elem_of_nil in Hm).
  - apply elem_of_list_singleton in Hm as ->. done.
  - apply elem_of_list_singleton in Hm as ->. done.
  - destruct hp; [by apply elem_of_nil in Hm|]. apply elem_of_list_singleton in Hm as ->. done.
  - apply elem_of_list_singleton in Hm as ->. done.
  - destruct hp; [by apply elem_of_nil in Hm|]. apply elem_of_list_singleton in Hm as ->. cbn. auto.
  - apply elem_of_list_singleton in Hm as ->. cbn. auto.
  - destruct (decide (c ∈ f_foreign s)) as [|Hf]; [by apply elem_of_nil in Hm|]. apply elem_of_list_singleton in Hm as ->. cbn. auto.
Qed.

Lemma dn_shut F (c : N) (e : list cevent) : EShutReq c ∈ e -> EInitReq c ∉ e -> NoDup (shutreqs e) ->
  List.filter (dnm c) (concat (qof F <$> e)) = [MShutReq c].
Proof.
  induction e as [|x e IH]; intros Hs Hi Hn; [by apply elem_of_nil in Hs|].
  assert (Hi' : EInitReq c ∉ e) by (intros ?; apply Hi; by right).
  cbn. rewrite List.filter_app.
  destruct (decide (x = EShutReq c)) as [->|Hx].
  - cbn. rewrite N.eqb_refl. f_equal. apply concat_filter. intros y Hy.
    assert (Hc : EShutReq c ∉ e).
    { cbn in Hn. intros Hc. apply NoDup_cons in Hn as [Hn _]. apply Hn. by apply in_shutreqs. }
    destruct y; cbn; try done; try (destruct hp; done).
    + destruct (N.eqb_spec c0 c) as [->|]; [|done]. done.
    + destruct (N.eqb_spec c0 c) as [->|]; [|done]. done.
    + destruct (decide _); done.
  - apply elem_of_cons in Hs as [?|Hs]; [congruence|].
    assert (Hn' : NoDup (shutreqs e)). { unfold shutreqs in *. cbn in Hn. destruct x; try done. by apply NoDup_cons in Hn as [_ Hn]. }
    rewrite (IH Hs Hi' Hn'). assert (List.filter (dnm c) (qof F x) = []) as ->; [|done].
    destruct x; cbn; try done; try (destruct hp; done).
    + destruct (N.eqb_spec c0 c) as [->|]; [|done]. exfalso. apply Hi. left.
    + destruct (N.eqb_spec c0 c) as [->|]; [|done]. done.
    + destruct (decide _); done.
Qed.

(** ** Entries of the list of children *)
Lemma req_created F s e s' ev c : moves F s e s' -> allinv F s ev -> EShutReq c ∈ e -> c <> 0 /\ ECreated c ∈ ev ++ e.
Proof.
  intros H. revert ev. induction H as [s|s e s1 e1 s2 Hm Hms IH]; intros ev Ha Hc; [by apply elem_of_nil in Hc|].
  apply elem_of_app in Hc as [Hc|Hc]; cycle 1.
  { rewrite (assoc_L (++)). apply IH; [|done]. eapply allinv_moves; [by apply moves_one|done]. }
  destruct Ha as [Hv _ _ Hh].
  assert (Hl : c <> 0 /\ exists i, cm_map s !! c = Some i /\ ci_actor i = Some c).
  { inversion Hm; subst; cbn in Hc; repeat (apply elem_of_cons in Hc as [Hc|Hc]; [try done|]); try (by apply elem_of_nil in Hc).
    - match goal with H : Forall quiet e |- _ => rewrite Forall_forall in H; by apply H in Hc end.
    - inversion Hc; subst. split; [done|]. assert (c0 = a) as -> by (by eapply v_key). eauto.
    - apply ask_events_in in Hc as [(c' & a & j & Hx & Hj & Hac & Hsh)|?]; [|done]. inversion Hx; subst.
      assert (c' = a) as -> by (by eapply v_key). split; [intros ->; congruence|eauto]. }
  destruct Hl as [Hne (i & Hi & Hac)]. split; [done|]. apply elem_of_app. left. eapply h_created; eauto.
Qed.

Definition okent (s : cstate) (c : N) : Prop := forall i, cm_map s !! c = Some i -> is_Some (ci_actor i).
Lemma none_kept F s e s' c : move F s e s' -> c < cm_next s -> cm_map s !! c = None -> cm_map s' !! c = None.
Proof.
  intros Hm Hlt Hn. inversion Hm; subst; clear Hm.
  - match goal with H : qrel _ _ _ |- _ => pose proof (qr_map _ _ _ H c) as Hq end. rewrite Hn in Hq. by destruct (cm_map s' !! c).
  - cbn. rewrite lookup_insert_ne by lia. done.
  - cbn. rewrite lookup_insert_ne by lia. done.
  - done.
  - cbn. rewrite lookup_insert_ne by lia. destruct (decide (a = c)) as [->|]; [apply lookup_delete|by rewrite lookup_delete_ne].
  - cbn. rewrite lookup_insert_ne by congruence. done.
  - cbn. rewrite lookup_insert_ne by congruence. done.
  - cbn. destruct (decide (a = c)) as [->|]; [apply lookup_delete|by rewrite lookup_delete_ne].
  - cbn. rewrite lookup_insert_ne by congruence. done.
  - cbn. rewrite lookup_insert_ne by congruence. done.
  - cbn. rewrite lookup_insert_ne by congruence. done.
  - cbn. rewrite lookup_insert_ne by congruence. done.
  - cbn. rewrite lookup_insert_ne by congruence. done.
  - rewrite ask_all_map, lookup_fmap, Hn. done.
Qed.

Lemma ent_kept F s e s' c : moves F s e s' -> cinv s -> c < cm_next s -> ~ removed c e -> okent s c -> okent s' c.
Proof.
  induction 1 as [s|s e s1 e1 s2 Hm Hms IH]; intros Hv Hlt Hr Ho; [done|].
  assert (cm_next s <= cm_next s1) by (by destruct (move_mono _ _ _ _ Hm)).
  apply IH.
  - by eapply cinv_move.
  - lia.
  - intros Hx. apply Hr, removed_app. by right.
  - intros j Hj. destruct (cm_map s !! c) as [i|] eqn:Hi; cycle 1.
    { rewrite (none_kept _ _ _ _ _ Hm Hlt Hi) in Hj. done. }
    destruct (move_live _ _ _ _ _ _ Hm Hv Hi (Ho _ Hi)) as [(i' & Hi' & Hac)|Hx].
    + assert (i' = j) as -> by congruence. rewrite Hac. by apply Ho.
    + exfalso. apply Hr, removed_app. by left.
Qed.
Lemma live_kept F s e s' c i : moves F s e s' -> cinv s -> ~ removed c e -> cm_map s !! c = Some i -> is_Some (ci_actor i) ->
  exists i', cm_map s' !! c = Some i' /\ ci_actor i' = ci_actor i.
Proof.
  intros H. revert i. induction H as [s|s e s1 e1 s2 Hm Hms IH]; intros i Hv Hr Hi Hac; [eauto|].
  destruct (move_live _ _ _ _ _ _ Hm Hv Hi Hac) as [(i' & Hi' & Hac')|Hx].
  - destruct (IH i') as (i2 & H1 & H2).
    + by eapply cinv_move.
    + intros Hx. apply Hr, removed_app. by right.
    + done.
    + by rewrite Hac'.
    + exists i2. split; congruence.
  - exfalso. apply Hr, removed_app. by left.
Qed.

(** ** One operation of the child manager *)
Lemma manage_res fo ea s o s' e : cinv (f_cm s) -> clean s -> local_empty s -> match o with OChild _ _ => False | _ => True end ->
  (forall c, known s c -> c < cm_next (f_cm s)) -> (1 <= cm_next (f_cm s)) ->
  manage fo ea s o = Ok (s', e) -> (forall c, EShutReq c ∈ e \/ EInitReq c ∈ e -> known s c) -> mres fo ea s o e s'.
Proof.
  intros Hv Hcl Hloc Ho Hlt H1 H Hreq. unfold FamilyModel.manage in H.
  destruct (step (f_cm s) o) as [[cm e']| |] eqn:Hs; cbn [rbind] in H; [|done..].
  inversion H; subst; clear H. pose proof (step_eff hp policy sync _ _ _ _ Hv Ho Hs) as He.
  assert (Hkn : forall c, known s c -> is_Some (cm_children cm !! c)).
  { intros c Hc. destruct (decide (ECreated c ∈ e)) as [Hx|Hx]; [rewrite (ef_new _ _ _ _ He) by done; eauto|by rewrite (ef_old _ _ _ _ He) by done]. }
  assert (Hkind : forall x, x ∈ e -> kind (f_cm s) o cm x). { pose proof (ef_kind _ _ _ _ He) as Hk. by rewrite Forall_forall in Hk. }
  destruct (decide (created e = [])) as [Hnil|Hnil].
  - assert (Hnc : forall c, ECreated c ∉ e).
    { intros c Hc. assert (c ∈ created e) as Hx; [|rewrite Hnil in Hx; by apply elem_of_nil in Hx].
      unfold created. apply elem_of_list_omap. by exists (ECreated c). }
    destruct (fold_grown fo ea e Hnc (set_cm s cm)) as [A1 A2 A3 A4 A5 A6 A7 A8 A9].
    set (t := foldl (react fo ea) (set_cm s cm) e) in *. clearbody t. cbn in A1, A2, A3, A4, A5, A6, A7, A8, A9.
    assert (Hd : forall c, downl (set_init t (f_init t ∩ cm_initout cm)) c = downl s c). { intros c. unfold downl. cbn. by rewrite A4. }
    assert (Hu : forall c, upl (set_init t (f_init t ∩ cm_initout cm)) c = upl s c ++ concat (uof (f_foreign s) c <$> e)).
    { intros c. apply A3. }
    assert (Hcu : forall c m, m ∈ concat (uof (f_foreign s) c <$> e) -> m = MTrigger c /\ EChildShutdown c ∈ e /\ c ∈ f_foreign s).
    { intros c m Hm. apply elem_of_list_In, in_concat in Hm as (l & Hl & Hm). apply elem_of_list_In in Hl, Hm.
      apply elem_of_list_fmap in Hl as (x & -> & Hx). destruct x; cbn in Hm; try (by apply elem_of_nil in Hm).
      destruct (decide (c0 ∈ f_foreign s)); [|by apply elem_of_nil in Hm]. destruct (decide (c0 = c)) as [->|]; [|by apply elem_of_nil in Hm].
      apply elem_of_list_singleton in Hm as ->. done. }
    assert (Hcq : forall c m, m ∈ concat (qof (f_foreign s) <$> e) -> c <> 0 -> upm c m = true -> m = MTrigger c /\ EChildShutdown c ∈ e /\ c ∉ f_foreign s).
    { intros c m Hm Hc0 Hp. pose proof (qof_sent fo (f_foreign s) e s eq_refl) as Hq. rewrite Forall_forall in Hq. apply Hq in Hm.
      destruct m; cbn in Hp; try done; apply N.eqb_eq in Hp; subst; cbn in Hm; try done.
      destruct Hm as [[? _]|[[? ?]|[_ Hm]]]; try done. by apply Hnc in Hm. }
    split; cbn.
    + by rewrite A1.
    + exists (concat (qof (f_foreign s) <$> e)). split; [done|]. by apply qof_sent.
    + rewrite A2, omap_app. f_equal. apply omap_concat. intros x Hx. destruct x; cbn; try done; try (destruct hp; done); try (destruct (decide _); done).
      by destruct (Hnc c).
    + rewrite A2, omap_app. f_equal. apply omap_concat. intros x Hx. destruct x; cbn; try done; try (destruct hp; done); try (destruct (decide _); done).
    + intros c Hc Hc0. unfold UP. rewrite Hu. cbn. rewrite A2.
      destruct (decide (c ∈ f_foreign s)) as [Hf|Hf].
      * exists (concat (uof (f_foreign s) c <$> e)). rewrite !List.filter_app.
        rewrite (filter_none (upm c) (concat (qof (f_foreign s) <$> e))); cycle 1.
        { intros m Hm. destruct (upm c m) eqn:Hp; [|done]. by destruct (Hcq c m Hm Hc0 Hp) as (_ & _ & ?). }
        rewrite app_nil_r, (assoc_L (++)). split_and!.
        -- f_equal. assert (Hx : Forall (fun m => m = MTrigger c) (concat (uof (f_foreign s) c <$> e))).
           { apply Forall_forall. intros m Hm. by apply Hcu in Hm as [? _]. }
           induction Hx as [|m l -> _ IHl]; [done|]. cbn. rewrite N.eqb_refl. by rewrite IHl.
        -- apply Forall_forall. intros m Hm. by apply Hcu in Hm as [-> _].
        -- destruct (concat (uof (f_foreign s) c <$> e)) as [|m l] eqn:El; [by left|]. right. apply (Hcu c m). rewrite El. left.
      * exists (List.filter (upm c) (concat (qof (f_foreign s) <$> e))). destruct (Hloc c Hf) as [Hl _]. rewrite Hl.
        assert (concat (uof (f_foreign s) c <$> e) = []) as ->.
        { destruct (concat (uof (f_foreign s) c <$> e)) as [|m l] eqn:El; [done|]. exfalso. destruct (Hcu c m) as (_ & _ & ?); [rewrite El; left|done]. }
        cbn. rewrite !app_nil_r, List.filter_app. split_and!.
        -- done.
        -- apply Forall_forall. intros m Hm. apply in_filter in Hm as [Hm Hp]. by destruct (Hcq c m Hm Hc0 Hp) as [-> _].
        -- destruct (List.filter (upm c) (concat (qof (f_foreign s) <$> e))) as [|m l] eqn:El; [by left|]. right.
           assert (Hm : m ∈ List.filter (upm c) (concat (qof (f_foreign s) <$> e))) by (rewrite El; left).
           apply in_filter in Hm as [Hm Hp]. by destruct (Hcq c m Hm Hc0 Hp) as (_ & ? & _).
    + intros c m Hm. rewrite Hu in Hm. apply elem_of_app in Hm as [Hm|Hm]; [by left|]. right. by apply Hcu in Hm as [? _].
    + intros c Hne. rewrite Hu. by destruct (upl s c).
    + intros c Hc Hc0 Hns Hni. unfold DN. rewrite Hd. cbn. rewrite A2, (assoc_L (++)), List.filter_app.
      rewrite (filter_none (dnm c) (concat (qof (f_foreign s) <$> e))); [by rewrite app_nil_r|].
      intros m Hm. destruct (dnm c m) eqn:Hp; [|done]. exfalso. pose proof (qof_sent fo (f_foreign s) e s eq_refl) as Hq. rewrite Forall_forall in Hq. apply Hq in Hm.
      destruct m; cbn in Hp; try done; apply N.eqb_eq in Hp; subst; cbn in Hm; try done. by apply Hnc in Hm.
    + intros c Hc Hc0 He0. unfold DN. rewrite Hd. cbn. rewrite A2, (assoc_L (++)), List.filter_app. rewrite He0. cbn. by rewrite N.eqb_refl.
    + intros c Hc Hc0 Hs' Hi' Hnd. unfold DN. rewrite Hd. cbn. rewrite A2, (assoc_L (++)), List.filter_app. by rewrite dn_shut.
    + intros c Hc. by apply Hnc in Hc.
    + done.
    + intros c Hc. by rewrite A5.
    + intros c Hc. left. by rewrite A5 in Hc.
    + intros c Hc. apply elem_of_intersection in Hc as [Hc1 Hc2]. split; [by apply A6|]. by rewrite A1.
    + done.
    + done.
    + done.
    + intros c Hc Hc0. assert (Hc' : ~ known s c). { intros Hx. apply Hc. unfold known. cbn. rewrite A1. by apply Hkn. }
      destruct (Hcl c Hc' Hc0) as (B1 & B2 & B3 & B4 & B5 & B6 & B7). split_and!.
      * intros m Hm. cbn in Hm. rewrite A2 in Hm. apply elem_of_app in Hm as [Hm|Hm]; [by apply B1|].
        pose proof (qof_sent fo (f_foreign s) e s eq_refl) as Hq. rewrite Forall_forall in Hq. apply Hq in Hm.
        destruct m; cbn; try done; (split; [try done|try done]); (destruct (N.eqb_spec c0 c) as [->|] || destruct (N.eqb_spec a c) as [->|]); try done; exfalso; cbn in Hm.
        -- by apply Hnc in Hm.
        -- apply Hc', Hreq. by right.
        -- destruct Hm as [[? _]|[[_ Hm]|[_ Hm]]]; [done| |by apply Hnc in Hm].
           apply Hkind in Hm as (_ & _ & ch & Hch & _). apply Hc'. unfold known. rewrite Hch. eauto.
        -- apply Hc', Hreq. by left.
      * rewrite Hu, B2. cbn. destruct (concat (uof (f_foreign s) c <$> e)) as [|m l] eqn:El; [done|]. exfalso.
        destruct (Hcu c m) as (_ & _ & ?); [rewrite El; left|done].
      * by rewrite Hd.
      * cbn. by rewrite A5.
      * cbn. intros Hx. apply elem_of_intersection in Hx as [Hx _]. apply A6 in Hx as [Hx|Hx]; [done|]. apply Hc', Hreq. by right.
      * cbn. intros Hx. apply A7 in Hx as [Hx|Hx]; [done|]. apply Hc', Hreq. by left.
      * cbn. by rewrite A8.
    + intros c Hc. cbn in Hc. rewrite A5 in Hc. destruct (Hloc c Hc) as [B1 B2]. split; [|by rewrite Hd].
      rewrite Hu, B1. cbn. destruct (concat (uof (f_foreign s) c <$> e)) as [|m l] eqn:El; [done|]. exfalso.
      destruct (Hcu c m) as (_ & _ & ?); [rewrite El; left|done].
  - assert (Hex : exists c, ECreated c ∈ e).
    { destruct (created e) as [|c l] eqn:El; [done|]. exists c. assert (Hc : c ∈ created e) by (rewrite El; left).
      unfold created in Hc. apply elem_of_list_omap in Hc as (x & Hx & Hc). destruct x; inversion Hc; subst. done. }
    destruct Hex as [n Hn]. destruct (created_ops _ _ _ _ _ He Hs Hn) as (-> & e1 & e2 & -> & F1 & F2 & Hid & Hop).
    rewrite foldl_app. cbn [foldl]. rewrite F1, F2.
    set (n := cm_next (f_cm s)) in *.
    assert (Hnk : ~ known s n) by (intros Hx; apply Hlt in Hx; lia).
    assert (Hn0 : n <> 0) by lia.
    destruct (Hcl n Hnk Hn0) as (B1 & B2 & B3 & B4 & B5 & B6 & B7).
    assert (Hin : forall x, x ∈ e1 ++ ECreated n :: e2 -> x = ECreated n \/ idle x = true).
    { intros x Hx. rewrite Forall_forall in Hid. apply elem_of_app in Hx as [Hx|Hx]; [right; apply Hid, elem_of_app; by left|].
      apply elem_of_cons in Hx as [?|Hx]; [by left|]. right. apply Hid, elem_of_app. by right. }
    set (t := react fo ea (set_cm s cm) (ECreated n)).
    assert (Ht : f_cm t = cm /\ f_q t = f_q s ++ (if ea && negb fo then [MTrigger n] else []) ++ [MCreate n] /\
      (forall c, upl t c = upl s c ++ (if decide (c = n) then if ea && fo then [MTrigger n] else [] else [])) /\
      f_down t = f_down s /\ f_foreign t = (if fo then f_foreign s ∪ {[n]} else f_foreign s) /\ f_init t = f_init s /\
      f_shut t = f_shut s /\ f_bye t = f_bye s /\ f_phase t = f_phase s).
    { unfold t. cbn. destruct ea, fo; cbn; unfold from; cbn.
      - rewrite decide_True by set_solver. cbn. split_and!; try done. intros c. unfold upl. cbn.
        destruct (decide (c = n)) as [->|]; [by rewrite lookup_insert|]. rewrite lookup_insert_ne by done. by rewrite app_nil_r.
      - rewrite decide_False by done. cbn. rewrite <-(assoc_L (++)). split_and!; try done. intros c. unfold upl. cbn. destruct (decide _); by rewrite app_nil_r.
      - split_and!; try done. intros c. unfold upl. cbn. destruct (decide _); by rewrite app_nil_r.
      - split_and!; try done. intros c. unfold upl. cbn. destruct (decide _); by rewrite app_nil_r. }
    destruct Ht as (A1 & A2 & A3 & A4 & A5 & A6 & A7 & A8 & A9). clearbody t.
    assert (Hd : forall c, downl (set_init t (f_init t ∩ cm_initout cm)) c = downl s c). { intros c. unfold downl. cbn. by rewrite A4. }
    set (L := (if ea && negb fo then [MTrigger n] else []) ++ [MCreate n]) in *.
    assert (HL : forall m, m ∈ L -> m = MCreate n \/ (m = MTrigger n /\ fo = false)).
    { intros m Hm. unfold L in Hm. apply elem_of_app in Hm as [Hm|Hm]; [|apply elem_of_list_singleton in Hm; by left].
      destruct ea, fo; cbn in Hm; try (by apply elem_of_nil in Hm). apply elem_of_list_singleton in Hm as ->. by right. }
    assert (HLc : forall c, c <> n -> List.filter (upm c) L = [] /\ List.filter (dnm c) L = []).
    { intros c Hc. split; apply filter_none; intros m Hm; apply HL in Hm as [->|[-> _]]; cbn; try done; destruct (N.eqb_spec n c); congruence. }
    assert (Hcr : created (e1 ++ ECreated n :: e2) = [n]).
    { rewrite created_app. cbn. pose proof Hid as [I1 I2]%Forall_app.
      rewrite (created_none e1). 2: { intros c Hc. rewrite Forall_forall in I1. by apply I1 in Hc. }
      cbn. f_equal. apply (created_none e2). intros c Hc. rewrite Forall_forall in I2. by apply I2 in Hc. }
    assert (Hsp : spawnmsgs (e1 ++ ECreated n :: e2) = []).
    { apply no_spawnmsgs. intros c Hc. by apply Hin in Hc as [?|?]. }
    split; cbn.
    + by rewrite A1.
    + exists L. split; [done|]. apply Forall_forall. intros m Hm. apply HL in Hm as [->|[-> ?]]; cbn; [done|]. right. right. done.
    + rewrite A2, omap_app, Hcr. f_equal. unfold L. by destruct ea, fo.
    + rewrite A2, omap_app, Hsp. f_equal. unfold L. by destruct ea, fo.
    + intros c Hc Hc0. assert (c <> n) by (intros ->; done). exists []. rewrite app_nil_r. split; [|split; [constructor|by left]].
      unfold UP. change (upl (set_init t (f_init t ∩ cm_initout cm)) c) with (upl t c). rewrite A3, decide_False by done. cbn. rewrite A2.
      rewrite app_nil_r, !List.filter_app. destruct (HLc c) as [-> _]; [done|]. by rewrite app_nil_r.
    + intros c m Hm. change (upl (set_init t (f_init t ∩ cm_initout cm)) c) with (upl t c) in Hm. rewrite A3 in Hm. apply elem_of_app in Hm as [Hm|Hm]; [by left|].
      destruct (decide (c = n)) as [->|]; [|by apply elem_of_nil in Hm]. destruct (ea && fo); [|by apply elem_of_nil in Hm].
      apply elem_of_list_singleton in Hm as ->. by right.
    + intros c Hne. change (upl (set_init t (f_init t ∩ cm_initout cm)) c) with (upl t c). rewrite A3. by destruct (upl s c).
    + intros c Hc Hc0 _ _. assert (c <> n) by (intros ->; done). unfold DN. rewrite Hd. cbn. rewrite A2, (assoc_L (++)), List.filter_app.
      destruct (HLc c) as [_ ->]; [done|]. by rewrite app_nil_r.
    + intros c Hc Hc0 Hx. exfalso. assert (Hy : ECreated n ∈ e1 ++ ECreated n :: e2) by (apply elem_of_app; right; left).
      rewrite Hx in Hy. by apply elem_of_list_singleton in Hy.
    + intros c Hc Hc0 Hx. exfalso. by apply Hin in Hx as [?|?].
    + intros c Hc _. apply Hin in Hc as [Hc|?]; [|done]. inversion Hc; subst c. clear Hc.
      unfold UP, DN. change (upl (set_init t (f_init t ∩ cm_initout cm)) n) with (upl t n). rewrite Hd, B3, A3, decide_True by done. cbn. rewrite A2.
      rewrite !List.filter_app, B2. rewrite (filter_none (dnm n) (f_q s)), (filter_none (upm n) (f_q s)) by (intros m Hm; by apply B1).
      split_and!.
      * unfold L. destruct ea, fo; cbn; by rewrite ?N.eqb_refl.
      * unfold L. destruct ea, fo; cbn; rewrite ?N.eqb_refl; auto.
      * intros Hf Hm. rewrite A5 in Hf. apply elem_of_app in Hm as [Hm|Hm].
        -- apply B1 in Hm as [Hm _]. cbn in Hm. by rewrite N.eqb_refl in Hm.
        -- apply HL in Hm as [?|[_ ->]]; done.
      * rewrite A6. intros Hx. apply elem_of_intersection in Hx as [Hx _]. done.
      * by rewrite A8.
    + done.
    + intros c Hc. rewrite A5. assert (c <> n) by (intros ->; done). destruct fo; set_solver.
    + intros c Hc. rewrite A5 in Hc. destruct fo; [|by left]. apply elem_of_union in Hc as [Hc|Hc]; [by left|]. apply elem_of_singleton in Hc as ->. right. apply elem_of_app; right; left.
    + intros c Hc. apply elem_of_intersection in Hc as [Hc1 Hc2]. rewrite A1. split; [|done]. left. by rewrite A6 in Hc1.
    + intros c. rewrite A7. split; [by left|]. intros [?|Hx]; [done|]. by apply Hin in Hx as [?|?].
    + done.
    + by left.
    + intros c Hc Hc0. assert (Hc' : ~ known s c). { intros Hx. apply Hc. unfold known. cbn. rewrite A1. by apply Hkn. }
      assert (Hcn : c <> n). { intros ->. apply Hc. unfold known. cbn. rewrite A1. rewrite (ef_new _ _ _ _ He); [eauto|]. apply elem_of_app; right; left. }
      destruct (Hcl c Hc' Hc0) as (C1 & C2 & C3 & C4 & C5 & C6 & C7). split_and!; cbn.
      * intros m Hm. rewrite A2 in Hm. apply elem_of_app in Hm as [Hm|Hm]; [by apply C1|].
        destruct (HLc c Hcn) as [D1 D2]. split.
        -- destruct (upm c m) eqn:Hp; [|done]. exfalso. assert (Hx : m ∈ List.filter (upm c) L) by (by apply in_filter). rewrite D1 in Hx. by apply elem_of_nil in Hx.
        -- destruct (dnm c m) eqn:Hp; [|done]. exfalso. assert (Hx : m ∈ List.filter (dnm c) L) by (by apply in_filter). rewrite D2 in Hx. by apply elem_of_nil in Hx.
      * change (upl (set_init t (f_init t ∩ cm_initout cm)) c) with (upl t c). by rewrite A3, decide_False, app_nil_r by done.
      * by rewrite Hd.
      * rewrite A5. destruct fo; set_solver.
      * rewrite A6. intros Hx. apply elem_of_intersection in Hx as [Hx _]. done.
      * by rewrite A7.
      * by rewrite A8.
    + intros c Hc. cbn in Hc. rewrite A5 in Hc. assert (Hc' : c ∉ f_foreign s) by (destruct fo; set_solver). destruct (Hloc c Hc') as [C1 C2]. split; [|by rewrite Hd].
      change (upl (set_init t (f_init t ∩ cm_initout cm)) c) with (upl t c). rewrite A3, C1. destruct (decide (c = n)) as [->|]; [|done].
      destruct ea, fo; cbn; try done. set_solver.
Qed.
End fold.
