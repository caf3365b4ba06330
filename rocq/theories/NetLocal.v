(** What one step of an actor does to its links: which events it may emit, and which
    requests stay open. *)
From stdpp Require Import base list gmap.
From Verif Require Import Base Prog ActorModel ActorSpec ActorMoves ActorReach ActorSafeSpec ActorSafe ActorSteps NetModel NetSpec.
Open Scope N_scope.
Local Open Scope prog_scope.

Definition init_ev (x : aev) : bool :=
  match x with
  | EvLink _ _ _ | EvRegister _ | EvDiscover _ | EvAcquire _ | EvRelease _ | EvInitVote _ _ | EvInitOk | EvInitErr _
  | EvState _ AInitialized | EvReg _ _ | EvDisc _ _ | EvPromise _ _ => true
  | _ => false
  end.
Definition down_ev (U : list N) (x : aev) : Prop :=
  match x with
  | EvNotify _ | EvUnlinkReq _ _ | EvShutVote _ _ | EvDereg _ | EvCancel _ | EvShutOk | EvState _ AShutDown => True
  | EvUnlinkReply a => a ∈ U
  | _ => False
  end.

Section pass.
Context (cfg : plug -> list uact) (ra : N) (unl : bool).
(** The queue of servers, the timeout responses, what is allowed. *)
Context (U : list N) (L : list query) (ok : aev -> Prop).

(** Unlink requests are open; their numbers are not those of link requests. *)
Definition tracked (s : astore) : Prop :=
  (forall c id, x_cl s !! c = Some (CUnlinking id) -> id < x_next s /\ x_pend s !! id = Some (QUnlink c) /\ forall a cb, x_sv s !! a <> Some (SRec cb (SLinking id))) /\
  (forall a cb id, x_sv s !! a = Some (SRec cb (SLinking id)) -> id < x_next s).
Definition J (s : astore) (ev : list aev) : Prop := (x_uq s = U /\ x_late s = L /\ tracked s) /\ Forall ok ev.
Definition Jd (s : astore) (ev : list aev) : Prop := (x_uq s = U /\ x_late s = L /\ (x_st s = AShutDown \/ tracked s)) /\ Forall ok ev.
Definition misc_ok : Prop := forall x, init_ev x = true -> (forall a o id, x <> EvLink a o id) -> (forall i, x <> EvAcquire i) -> ok x.
Definition init_ok : Prop := forall x, init_ev x = true -> ok x.
Definition reply_ok : Prop := forall a, a ∈ U -> ok (EvUnlinkReply a).
Definition down_ok : Prop := forall x, down_ev U x -> ok x.

Lemma J_Jd s ev : J s ev -> Jd s ev.
Proof. intros [(? & ? & ?) ?]. split; auto. Qed.
Lemma J_ev s ev x : J s ev -> ok x -> J s (ev ++ [x]).
Proof. intros [? ?] ?. split; [done|]. apply Forall_app_2; [done|]. by constructor. Qed.
Lemma tracked_mono s s' : tracked s -> x_next s <= x_next s' ->
  (forall c id, x_cl s' !! c = Some (CUnlinking id) -> x_cl s !! c = Some (CUnlinking id)) ->
  (forall c id, x_cl s' !! c = Some (CUnlinking id) -> x_pend s !! id = Some (QUnlink c) -> x_pend s' !! id = Some (QUnlink c)) ->
  (forall a cb id, x_sv s' !! a = Some (SRec cb (SLinking id)) -> (exists cb', x_sv s !! a = Some (SRec cb' (SLinking id))) \/ id = x_next s /\ id < x_next s') -> tracked s'.
Proof.
  intros [T1 T2] Hn Hc Hp Hs. split.
  - intros c id Hcl. pose proof (Hc _ _ Hcl) as Hcl'. destruct (T1 c id Hcl') as (E1 & E2 & E3). split_and!; [lia|by apply Hp|].
    intros a cb Ha. destruct (Hs a cb id Ha) as [[cb' Ha']|[-> _]]; [by apply (E3 a cb')|lia].
  - intros a cb id Ha. destruct (Hs a cb id Ha) as [[cb' Ha']|[-> ?]]; [|done]. pose proof (T2 _ _ _ Ha'). lia.
Qed.
Lemma tracked_same s s' : tracked s -> x_next s' = x_next s -> x_cl s' = x_cl s -> x_sv s' = x_sv s -> x_pend s' = x_pend s -> tracked s'.
Proof. intros T E1 E2 E3 E4. unfold tracked. by rewrite E1, E2, E3, E4. Qed.
Lemma J_same s s' ev : J s ev -> x_uq s' = x_uq s -> x_late s' = x_late s -> x_sv s' = x_sv s -> x_pend s' = x_pend s -> x_next s' = x_next s -> x_cl s' = x_cl s -> J s' ev.
Proof. intros [(E1 & E2 & T) ?] F1 F2 F3 F4 F5 F6. split; [|done]. rewrite F1, F2. split_and!; try done. by eapply tracked_same. Qed.
Lemma tracked_pend s q : tracked s -> tracked (w_req s q).
Proof.
  intros T. eapply tracked_mono; [exact T|cbn; lia|done| |]; cbn.
  - intros c i Hc Hp. rewrite lookup_insert_ne; [done|]. destruct T as [T1 _]. destruct (T1 _ _ Hc). lia.
  - eauto.
Qed.
Lemma J_req s q s' ev : J s ev -> x_uq s' = x_uq s -> x_late s' = x_late s -> x_sv s' = x_sv s -> x_pend s' = <[x_next s := q]> (x_pend s) -> x_next s' = x_next s + 1 -> x_cl s' = x_cl s -> J s' ev.
Proof.
  intros [(E1 & E2 & T) ?] F1 F2 F3 F4 F5 F6. split; [|done]. rewrite F1, F2. split_and!; try done. eapply tracked_same; [apply (tracked_pend s q T)|done..].
Qed.
Lemma J_del s a ev : J s ev -> J (w_sv s (delete a (x_sv s))) ev.
Proof.
  intros [(E1 & E2 & T) ?]. split; [|done]. split_and!; try done. eapply tracked_mono; [exact T|cbn; lia|done..|]. cbn. intros b cb id. rewrite lookup_delete_Some. intros [_ H1]. eauto.
Qed.
Ltac jsame := first [assumption|eapply J_same; [eassumption|reflexivity..]].

Definition keepJ {A} (m : prog astore aev A) : Prop := forall s ev, J s ev -> wp false m (fun _ => J) s ev.
Lemma keep_each {A} (l : list A) (f : A -> prog astore aev unit) : (forall x, x ∈ l -> keepJ (f x)) -> keepJ (each l f).
Proof. intros H s ev HJ. apply (wp_each false l f J); [|done]. intros x s1 ev1 Hx HJ1. by apply H. Qed.
Lemma keep_del {A} (l : list A) (f : A -> astore -> astore) : (forall x s, x_uq (f x s) = x_uq s /\ x_late (f x s) = x_late s /\ x_sv (f x s) = x_sv s /\ x_pend (f x s) = x_pend s /\ x_next (f x s) = x_next s /\ x_cl (f x s) = x_cl s) ->
  keepJ (each l (fun m => modify (f m))).
Proof. intros H. apply keep_each. intros x _ s ev HJ. wps. destruct (H x s) as (? & ? & ? & ? & ? & ?). by eapply J_same. Qed.

Lemma link_keep a o cb : (forall id, ok (EvLink a o id)) -> keepJ (link a o cb).
Proof.
  intros Ho s ev H. unfold link, reaction_init, request. wps. psimpl.
  apply J_ev; [|apply Ho]. destruct H as [(E1 & E2 & T) Hf]. split; [|done]. split_and!; [done..|]. eapply tracked_mono; [exact T|cbn; lia|done| |]; cbn.
  - intros c i Hc Hp. rewrite lookup_insert_ne; [done|]. destruct T as [T1 _]. destruct (T1 _ _ Hc). lia.
  - intros b cb' i. destruct (decide (b = a)) as [->|Hb]; [|rewrite lookup_insert_ne by done; eauto]. rewrite lookup_insert. intros [= _ <-]. right. lia.
Qed.

Lemma act_misc u : misc_ok -> (forall i, ok (EvAcquire i)) -> ~ link_act u -> ~ names_act u -> keepJ (act ra u).
Proof.
  intros HI Ha H1 H2 s ev H. destruct u; try (by destruct H1); try (by destruct H2); cbn [act]; unfold acquire, release, reaction_init, reaction_down; wps.
  all: try (eapply J_same; [|reflexivity..]); try (apply J_ev; [|first [apply Ha|by apply HI]]); jsame.
Qed.
(** ** Initialization *)
Section init.
Context (HI : init_ok).
Lemma act_keep u : keepJ (act ra u).
Proof.
  intros s ev H. destruct u; cbn [act]; unfold register_name, discover_name, link_registry, acquire, release, reaction_init, reaction_down; wps.
  all: try (wp_use (apply link_keep; [intros; by apply HI|jsame]); intros _ s1 ev1 HJ1); wps.
  all: try (eapply J_same; [|reflexivity..]); try (apply J_ev; [|by apply HI]); jsame.
Qed.
Lemma configure_keep p : keepJ (configure cfg ra p).
Proof. apply keep_each. intros u _ s ev H. wp_use (by apply act_keep). intros b s1 ev1 H1. by wps. Qed.
Lemma configure_once_keep p : keepJ (configure_once cfg ra p).
Proof. intros s ev H. unfold configure_once. wps; [|done]. apply configure_keep. jsame. Qed.
Lemma handle_init_keep p : keepJ (handle_init cfg ra p).
Proof.
  intros s ev H. destruct p; cbn [handle_init]; wps; try done; try (wp_use (by apply configure_once_keep)); try (intros _ s1 ev1 H1; wps); try done.
  unfold reaction_init. wps; jsame.
Qed.
Lemma init_loop_keep l : keepJ (init_loop cfg ra l).
Proof.
  induction l as [|p l IH]; intros s ev H; cbn [init_loop]; unfold init_finish, set_state; wps.
  - rewrite <- (assoc_L (++)). eapply J_same; [|reflexivity..]. psimpl. rewrite (assoc_L (++)). apply J_ev; [|by apply HI]. apply J_ev; [|by apply HI]. done.
  - wp_use (by apply handle_init_keep). intros b s1 ev1 H1. unfold reaction_init. wps.
    + apply IH. eapply J_same; [|reflexivity..]. apply J_ev; [done|]. by apply HI.
    + eapply J_same; [|reflexivity..]. apply J_ev; [done|]. by apply HI.
  - by apply IH.
Qed.
Lemma init_continue_keep : keepJ (init_continue cfg ra).
Proof. intros s ev H. unfold init_continue. wps. apply init_loop_keep. jsame. Qed.
End init.
Lemma continue_init_keep b : (b = true -> init_ok) -> ok (EvInitErr PRg) -> keepJ (continue_init cfg ra b).
Proof. intros HI He s ev H. unfold continue_init. wps; [apply init_continue_keep; auto|]. by apply J_ev. Qed.

(** ** Shutdown *)
Lemma forget_all_keep l : reply_ok -> (forall a, a ∈ l -> a ∈ U) -> keepJ (forget_all unl l).
Proof.
  intros HR. induction l as [|a l IH]; intros Hl s ev H; cbn [forget_all]; [by wps|]. unfold forget_one. wps. destruct (x_sv s !! a) eqn:E; wps.
  - wp_use (apply IH; [intros; apply Hl; by right|]; apply J_del, J_ev; [done|apply HR, Hl; by left]). intros b s1 ev1 H1. by wps.
  - wp_use (apply IH; [intros; apply Hl; by right|done]). intros b s1 ev1 H1. by wps.
Qed.
Lemma forget_links_keep : reply_ok -> keepJ (forget_links unl).
Proof. intros HR s ev H. unfold forget_links. wps; [|done]. apply forget_all_keep; [done| |done]. destruct H as [(-> & _) _]. auto. Qed.
Section down.
Context (HD : down_ok).
Lemma notify_keep : keepJ notify_shutdown.
Proof.
  intros s ev H. unfold notify_shutdown. wps. apply keep_each; [|done]. intros [c x] _. clear s ev H. intros s ev H. unfold notify_client, request. destruct x; wps; try done.
  destruct H as [(E1 & E2 & [T1 T2]) Hf]. split; [split_and!; [done..|]|apply Forall_app_2; [done|]; repeat constructor; by apply HD]. split; cbn.
  - intros c' id. destruct (decide (c' = c)) as [->|Hc].
    + rewrite lookup_insert. intros [= <-]. split_and!; [lia|apply lookup_insert|]. intros a cb Ha. pose proof (T2 _ _ _ Ha). lia.
    + rewrite lookup_insert_ne by done. intros Hc'. destruct (T1 _ _ Hc') as (F1 & F2 & F3). split_and!; [lia| |done]. rewrite lookup_insert_ne; [done|lia].
  - intros a cb id Ha. pose proof (T2 _ _ _ Ha). lia.
Qed.
Lemma leave_keep a x s ev : J s ev -> x_sv s !! a = Some x -> wp false (leave_server a x) (fun _ s' ev' => J s' ev' /\ x_sv s' = delete a (x_sv s)) s ev.
Proof.
  intros H Ha. unfold leave_server, discard_request. wps. assert (HJ : J (w_sv s (delete a (x_sv s))) (ev ++ [EvNotify a])).
  { apply J_del, J_ev; [done|]. by apply HD. }
  destruct x as [cb [id|]]; cbn [sr_st]; wps; [|by split]. split; [|done]. destruct H as [(E1 & E2 & T) Hf]. split; [|by apply HJ]. split_and!; [done..|].
  eapply tracked_mono; [exact T|cbn; lia|done| |]; cbn.
  - intros c i Hc Hp. rewrite lookup_delete_ne; [done|]. intros ->. destruct T as [T1 _]. destruct (T1 _ _ Hc) as (_ & _ & T3). by apply (T3 a cb).
  - intros b cb' i. rewrite lookup_delete_Some. intros [_ ?]. eauto.
Qed.
Lemma client_shutdown_keep : keepJ (client_shutdown unl).
Proof.
  intros s ev H. unfold client_shutdown. wps; [done|]. wp_use (apply forget_links_keep; [|done]; intros a Ha; by apply HD). intros _ s1 ev1 H1. wps.
  - eapply wp_call; [apply (wp_each_list false _ _ (fun r s' ev' => J s' ev' /\ todo r (x_sv s')) (fun _ => J))| ].
    + intros [a x] r s2 ev2 [H2 HT]. pose proof (todo_here _ _ _ _ HT) as Ha. wp_use (by apply leave_keep). intros _ s3 ev3 [H3 E3]. split; [done|].
      eapply todo_next; [exact HT|]. intros k Hk. rewrite E3. by rewrite lookup_delete_ne.
    + split; [done|apply todo_init].
    + by intros s2 ev2 [? _].
    + intros [] s2 ev2 H2. by wps.
  - wp_use (by apply notify_keep). intros _ s2 ev2 H2. by wps.
Qed.
Lemma registry_shutdown_keep : keepJ registry_shutdown.
Proof.
  intros s ev H. unfold registry_shutdown. wps.
  wp_use (apply keep_each; [|done]; intros [n x] _ s1 ev1 H1; wps; [apply J_ev; [done|by apply HD]|done]). intros _ s1 ev1 H1. wps.
  wp_use (apply keep_each; [|jsame]; intros [n t] _ s2 ev2 H2; unfold cancel_task; wps; [eapply J_same; [|reflexivity..]; apply J_ev; [done|by apply HD]|jsame]).
  intros _ s2 ev2 H2. wps; [jsame|done].
Qed.
Lemma shutdown_loop_keep l s ev : J s ev -> wp false (shutdown_loop unl l) (fun _ => Jd) s ev.
Proof.
  revert s ev. induction l as [|p l IH]; intros s ev H; cbn [shutdown_loop].
  - unfold shutdown_finish, set_state. wps; psimpl.
    + destruct H as [(E1 & E2 & _) Hf]. split; [split_and!; [done..|by left]|]. rewrite <- (assoc_L (++)). apply Forall_app_2; [done|]. repeat constructor; by apply HD.
    + destruct H as [(E1 & E2 & _) Hf]. split; [split_and!; [done..|by left]|]. apply Forall_app_2; [done|]. repeat constructor; by apply HD.
  - wps; [|by apply IH].
    eapply (wp_call false _ _ (fun _ => J)).
    + destruct p; cbn [handle_shutdown]; wps; try done.
      * wp_use (by apply notify_keep). intros _ s1 ev1 H1. by wps.
      * by apply client_shutdown_keep.
      * by apply registry_shutdown_keep.
    + intros b s1 ev1 H1. unfold reaction_down. wps.
      * apply IH. eapply J_same; [|reflexivity..]. apply J_ev; [done|by apply HD].
      * apply J_Jd. apply J_ev; [done|by apply HD].
Qed.
Lemma shutdown_continue_keep s ev : J s ev -> wp false (shutdown_continue unl) (fun _ => Jd) s ev.
Proof. intros H. unfold shutdown_continue. wps. by apply shutdown_loop_keep. Qed.
Lemma down_resume_keep s ev : J s ev -> wp false (down_resume unl) (fun _ => Jd) s ev.
Proof. intros H. unfold down_resume. wps; [by apply shutdown_continue_keep|by apply J_Jd]. Qed.
End down.

(** ** Message handlers *)
Lemma weaken {A} (m : prog astore aev A) s ev : wp false m (fun _ => J) s ev -> wp false m (fun _ => Jd) s ev.
Proof. intros H. eapply wp_mono; [exact H|]. intros x s1 ev1. apply J_Jd. Qed.
Lemma del_keep l s ev : J s ev -> wp false (each l (fun m => modify (fun s => w_dm s (delete m (x_dm s))))) (fun _ s' ev' => J s' ev' /\ x_st s' = x_st s) s ev.
Proof.
  intros H. apply (wp_each false l _ (fun s' ev' => J s' ev' /\ x_st s' = x_st s)); [|done]. intros m s1 ev1 _ [H1 E1]. wps. split; [jsame|done].
Qed.
Lemma post_discovery_keep n b s ev : J s ev -> x_st s = AInitializing -> (b = true -> init_ok) -> misc_ok -> wp false (post_discovery cfg ra unl n b) (fun _ => J) s ev.
Proof.
  intros H Hst HI HM. unfold post_discovery. wps. destruct (x_dm s !! n) as [t|] eqn:E; [|by wps].
  eapply (wp_call false _ _ (fun _ s' ev' => J s' ev' /\ x_st s' = x_st s)).
  - destruct (t_addr t ≫= _) as [l|]; [by apply del_keep|]. wps. split; [jsame|done].
  - intros _ s1 ev1 [H1 E1]. wps; [|exfalso|done].
    + apply continue_init_keep; [done|by apply HM|done].
    + apply bool_decide_eq_false in Heqb0. congruence.
Qed.
Lemma on_discovery_keep n r s ev : J s ev -> x_st s = AInitializing -> init_ok -> ok (EvDiscResp n r) -> wp false (on_discovery cfg ra unl n r) (fun _ => J) s ev.
Proof.
  intros H Hst HI He. unfold on_discovery. wps. destruct (x_dm s !! n) as [t|] eqn:E; [|by wps]. assert (HJ : J s (ev ++ [EvDiscResp n r])) by by apply J_ev.
  destruct r as [a|]; wps.
  - wps. destruct (x_al s !! a) as [l|]; wps.
    + jsame.
    + wp_use (apply link_keep; [intros; by apply HI|jsame]). intros _ s1 ev1 H1. wps. jsame.
  - apply post_discovery_keep; [jsame|done|done|]. intros x Hx _ _. by apply HI.
  - apply post_discovery_keep; [done|done|done|]. intros x Hx _ _. by apply HI.
Qed.
Lemma on_registration_keep n b s ev : J s ev -> init_ok -> ok (EvRegResp n b) -> wp false (on_registration cfg ra n b) (fun _ => J) s ev.
Proof.
  intros H HI He. unfold on_registration. wps.
  - apply continue_init_keep; [done|by apply HI|]. eapply J_same; [apply J_ev; [exact H|exact He]|reflexivity..].
  - eapply J_same; [apply J_ev; [exact H|exact He]|reflexivity..].
Qed.
Lemma on_link_keep b s ev : J s ev -> misc_ok -> wp false (on_link b) (fun _ s' ev' => J s' ev' /\ x_ireq s' = x_ireq s) s ev.
Proof.
  intros H HM. unfold on_link. wps; [|split; [jsame|done]].
  wp_use (apply (wp_each false _ _ (fun s' ev' => J s' ev' /\ x_ireq s' = x_ireq s)); [|split; [jsame|done]]).
  - intros [m x] s1 ev1 _ [H1 E1]. unfold request. wps. split; [|done]. apply J_ev; [|by apply HM]. by eapply J_req.
  - intros _ s1 ev1 [H1 E1]. wps.
    apply (wp_each false _ _ (fun s' ev' => J s' ev' /\ x_ireq s' = x_ireq s)); [|done].
    intros [m t] s2 ev2 _ [H2 E2]. unfold do_discover, request. wps. split; [|done]. apply J_ev; [by eapply J_req|]. apply HM; by destruct (t_delayed t).
Qed.
Lemma on_link_response_keep a b s ev : J s ev -> misc_ok -> ok (EvLinkResp a b) -> (x_st s = AInitializing -> b = true -> init_ok) ->
  (x_st s <> AInitializing -> x_ireq s = false /\ forall n x, x_sv s !! a <> Some (SRec (CbTask n) x)) ->
  wp false (on_link_response cfg ra unl a b) (fun _ => J) s ev.
Proof.
  intros H HM He HI HN. unfold on_link_response. wps. destruct (x_sv s !! a) as [x|] eqn:E; [|by wps]. apply wp_bnd.
  assert (wp false (when (negb b) (emit (EvLinkResp a false) ;; modify (fun s => w_sv s (delete a (x_sv s))))) (fun _ s' ev' => J s' ev' /\ x_ireq s' = x_ireq s /\ x_st s' = x_st s) s ev) as Hw.
  { destruct b; cbn [negb]; wps; try done. split; [|done]. apply J_del, J_ev; done. }
  eapply wp_mono; [exact Hw|]. intros _ s1 ev1 (H1 & Ei & Es). cbv beta. apply wp_bnd.
  assert (wp false (call_back cfg ra unl (sr_cb x) b) (fun _ s' ev' => J s' ev' /\ (x_st s <> AInitializing -> x_ireq s' = false)) s1 ev1) as Hc.
  { destruct x as [[| |n] y]; cbn [sr_cb call_back]; wps.
    - split; [done|]. intros Hn. rewrite Ei. by apply HN.
    - wp_use (by apply on_link_keep). intros _ s2 ev2 [H2 E2]. split; [done|]. intros Hn. rewrite E2, Ei. by apply HN.
    - destruct (decide (x_st s = AInitializing)) as [Hs|Hs]; [|by destruct (HN Hs) as [_ ?]; naive_solver].
      unfold on_task_link. wps. destruct (x_dm s1 !! n) as [t|]; wps. destruct (t_addr t ≫= _) as [l|]; wps.
      wp_use (apply post_discovery_keep; [done|congruence|auto|done]). intros _ s2 ev2 H2. done. }
  eapply wp_mono; [exact Hc|]. intros _ s2 ev2 (H2 & En). cbv beta. destruct b; wps; try done.
  - wps. destruct (decide (x_st s = AInitializing)) as [Hs|Hs]; [|by rewrite En in H0].
    apply init_continue_keep; [auto|]. destruct H2 as [(F1 & F2 & T) Hf]. split; [split_and!; [done..|]|by apply Forall_app_2; [|repeat constructor]].
    eapply tracked_mono; [exact T|cbn; lia|done..|]. cbn. intros b cb id. destruct (decide (b = a)) as [->|Hb]; [by rewrite lookup_insert|]. rewrite lookup_insert_ne by done. eauto.
  - destruct H2 as [(F1 & F2 & T) Hf]. split; [split_and!; [done..|]|by apply Forall_app_2; [|repeat constructor]].
    eapply tracked_mono; [exact T|cbn; lia|done..|]. cbn. intros b cb id. destruct (decide (b = a)) as [->|Hb]; [by rewrite lookup_insert|]. rewrite lookup_insert_ne by done. eauto.
  - eapply J_same; [|reflexivity..]. apply J_ev; [done|]. by apply HM.
Qed.
End pass.

(** ** Operations *)
(** No link is ended because of the answer to a link request, or of the start. *)
Definition no_end (o : aop) (s : astore) : bool := match o with OStart => true | OResp id _ => match x_pend s !! id with Some (QLink _) => true | _ => false end | _ => false end.
Definition ends (o : aop) (s : astore) : Prop :=
  no_end o s = false /\ (x_st s = AShuttingDown \/ o = OShutReq /\ rank (x_st s) < rank AShuttingDown).
Definition starts (o : aop) (s : astore) : Prop :=
  rank (x_st s) < rank AShuttingDown /\
  match o with
  | OInitReq | OUser _ | OLate | OSubscribed => True
  | OResp _ RpErr => no_end o s = false
  | OResp _ _ => True
  | _ => False
  end.
Definition quits (o : aop) (s : astore) : Prop := ends o s \/ exists a, o = OUnlinkReq a.
Definition ok_ev (o : aop) (s : astore) (x : aev) : Prop :=
  match x with
  | EvLink _ _ _ => starts o s
  | EvAcquire _ => starts o s \/ exists u, o = OUser u
  | EvLinkResp a b => exists id r, o = OResp id r /\ x_pend s !! id = Some (QLink a) /\ b = (match r with RpErr => false | _ => true end)
  | EvUnlinkReply a => (a ∈ x_uq s \/ o = OUnlinkReq a) /\ quits o s
  | EvNotify _ | EvUnlinkReq _ _ => ends o s
  | EvLinkReq c r p => o = OLinkReq c r p
  | EvLinkAns c r x => o = OStart /\ x = LOk /\ x_cl s !! c = Some (CPending r) \/ exists p, o = OLinkReq c r p
  | EvGotNotify c => o = OUnlinkNotify c
  | EvUnlinkOk c => exists id r, o = OResp id r /\ x_pend s !! id = Some (QUnlink c)
  | EvState _ AOperational => o = OStart /\ x_st s = AInitialized
  | EvState _ AShuttingDown => o = OShutReq
  | EvState _ AShutDown => ends o s
  | _ => True
  end.
(** The rules which are used here. *)
Definition lrule (o : aop) (s : astore) : Prop :=
  match o with
  | OUser u => link_act u \/ names_act u -> rank (x_st s) < rank AShuttingDown
  | OResp id r => match x_pend s !! id with Some q => may_answer s q /\ (linkq q = true \/ link_query q = false \/ r <> RpErr) | None => True end
  | OLate => match x_late s with q :: _ => may_answer s q | [] => True end
  | OTimeout id => match x_pend s !! id with Some q => link_query q = false | None => True end
  | _ => True
  end.
Definition uq_after (o : aop) (s : astore) : list N :=
  match o with OUnlinkReq a => match x_sv s !! a with Some _ => x_uq s ++ [a] | None => x_uq s end | _ => x_uq s end.
Definition late_after (o : aop) (s : astore) : list query :=
  match o with
  | OTimeout id => match x_pend s !! id with Some q => x_late s ++ [q] | None => x_late s end
  | OLate => tail (x_late s)
  | _ => x_late s
  end.

Section op.
Context (cfg : plug -> list uact) (ra : N) (unl : bool).
Definition post (o : aop) (s s' : astore) (e : list aev) : Prop :=
  ((x_uq s' = uq_after o s /\ x_late s' = late_after o s /\ (x_st s' = AShutDown \/ tracked s')) /\ Forall (ok_ev o s) e).

Lemma ok_misc o s : misc_ok (ok_ev o s).
Proof. intros x Hx Hn Hq. destruct x as [a p i| | | | | | | | | | | | | |b n| | | |i| | | | | | | | | |]; try done; [by destruct (Hn a p i)|by destruct n|by destruct (Hq i)]. Qed.
Lemma ok_init o s : starts o s -> init_ok (ok_ev o s).
Proof. intros Hs x Hx. destruct x as [a p i| | | | | | | | | | | | | |b n| | | | | | | | | | | | | |]; try done; [by destruct n|by left]. Qed.
Lemma ok_down o s : ends o s -> down_ok (uq_after o s) (ok_ev o s).
Proof.
  intros Hs x Hx. destruct x as [a p i| | | | | | | | | | | | | |b n| | | | | | | | | | | | | |]; try done; [|by destruct n]. cbn in *. split; [|by left].
  destruct o; try (by left). cbn in Hx. destruct (x_sv s !! a0); [|by left]. apply elem_of_app in Hx as [?|?%elem_of_list_singleton]; [by left|right; congruence].
Qed.
Lemma init_lt s : x_st s = AInitializing -> rank (x_st s) < rank AShuttingDown.
Proof. intros ->. done. Qed.

Lemma act_false u s ev : ~ release_act u -> wp false (act ra u) (fun b _ _ => b = false) s ev.
Proof. intros Hu. destruct u; cbn [act]; try (by destruct Hu); (eapply wp_call; [apply wp_true|]; intros _ s1 ev1 _; by wps). Qed.
Lemma tracked_resp s id q : tracked s -> x_pend s !! id = Some q -> (forall c, q <> QUnlink c) -> tracked (w_pend s (delete id (x_pend s))).
Proof.
  intros T Hq Hn. eapply tracked_mono; [exact T|cbn; lia|done| |]; cbn; [|eauto].
  intros c i Hc Hp. rewrite lookup_delete_ne; [done|]. intros ->. rewrite Hq in Hp. injection Hp as ->. by apply (Hn c).
Qed.
Lemma tracked_cl s c x : tracked s -> (forall id, x <> Some (CUnlinking id)) -> tracked (w_cl s (partial_alter (fun _ => x) c (x_cl s))).
Proof.
  intros T Hx. eapply tracked_mono; [exact T|cbn; lia| |done|]; cbn; [|eauto]. intros c' id. destruct (decide (c' = c)) as [->|Hc]; [rewrite lookup_partial_alter; naive_solver|by rewrite lookup_partial_alter_ne].
Qed.
Lemma resp_post q id r s : x_st s <> AShutDown -> tracked s -> x_pend s !! id = Some q -> may_answer s q -> (linkq q = true \/ link_query q = false \/ r <> RpErr) ->
  wp false (respond cfg ra unl q r) (fun _ s' e => post (OResp id r) s s' e) (w_pend s (delete id (x_pend s))) [].
Proof.
  intros Hst HT Hq HR Hr. pose proof (ok_misc (OResp id r) s) as HM. set (s1 := w_pend s _).
  assert (HJ : (forall c, q <> QUnlink c) -> J (x_uq s) (x_late s) (ok_ev (OResp id r) s) s1 []).
  { intros Hn. split; [|constructor]. split_and!; [done..|]. by eapply tracked_resp. }
  assert (HI : linkq q = false -> x_st s = AInitializing -> init_ok (ok_ev (OResp id r) s)).
  { intros Hl Hs. apply ok_init. split; [by apply init_lt|]. destruct r; try done. cbn. rewrite Hq. by destruct q. }
  destruct q as [a|n|n|c]; cbn [respond].
  - eapply wp_mono; [apply (on_link_response_keep _ _ _ (x_uq s) (x_late s) (ok_ev (OResp id r) s))|intros [] s2 ev2; apply J_Jd].
    + by apply HJ.
    + done.
    + cbn. eauto.
    + intros Hs Hb. apply ok_init. split; [by apply init_lt|]. by destruct r.
    + destruct HR as [R1 R2]. intros Hs. split; [destruct (x_ireq s) eqn:Ei; [by destruct Hs; apply R1|done]|]. intros n x Hx. cbn in Hx. rewrite Hx in R2. by destruct R2.
  - destruct HR as [R1 R2]. eapply wp_mono; [apply (on_registration_keep _ _ (x_uq s) (x_late s) (ok_ev (OResp id r) s)); [by apply HJ|by apply HI|done]|intros [] s2 ev2; apply J_Jd].
  - destruct HR as [R1 R2]. eapply wp_mono; [apply (on_discovery_keep _ _ _ (x_uq s) (x_late s) (ok_ev (OResp id r) s)); [by apply HJ|done|by apply HI|done]|intros [] s2 ev2; apply J_Jd].
  - assert (He : no_end (OResp id r) s = false) by (cbn; by rewrite Hq).
    assert (HT2 : tracked (w_cl s1 (delete c (x_cl s1)))).
    { destruct HT as [T1 T2]. split; [|done]. cbn. intros c' i. rewrite lookup_delete_Some. intros [Hc Hc']. destruct (T1 _ _ Hc') as (E1 & E2 & E3). split_and!; [done| |done].
      rewrite lookup_delete_ne; [done|]. intros ->. rewrite Hq in E2. congruence. }
    unfold on_unlink_response. wps.
    + destruct r; try discriminate. naive_solver.
    + unfold down_resume. wps.
      * apply bool_decide_eq_true in H1. apply (shutdown_continue_keep _ (x_uq s) (x_late s) (ok_ev (OResp id r) s)).
        { apply (ok_down (OResp id r)). split; [done|by left]. }
        split; [|]. { done. } repeat constructor. cbn. eauto.
      * split; [|repeat constructor; cbn; eauto]. split_and!; [done..|by right].
Qed.
Lemma forget_all_st l s ev : wp false (forget_all unl l) (fun _ s' _ => x_st s' = x_st s) s ev.
Proof.
  revert s ev. induction l as [|a l IH]; intros s ev; cbn [forget_all]; unfold forget_one; wps; [done|]. destruct (x_sv s !! a); wps; (wp_use (apply IH)); intros b s1 ev1 E; wps; done.
Qed.
Lemma forget_links_st s ev : wp false (forget_links unl) (fun _ s' _ => x_st s' = x_st s) s ev.
Proof. unfold forget_links. wps; [apply forget_all_st|done]. Qed.
Lemma step_post o s : lrule o s -> tracked s -> (forall q, q ∈ x_late s -> link_query q = false) -> x_st s <> AShutDown ->
  wp false (astep_live cfg ra unl o) (fun _ s' e => post o s s' e) s [].
Proof.
  intros HR HT HL Hst. pose proof (ok_misc o s) as HM.
  assert (HJ : J (x_uq s) (x_late s) (ok_ev o s) s []) by (split; [done|constructor]).
  destruct o as [|u|id r|id| |c r p|c|a| | | |]; cbn [astep_live].
  - wps.
    + apply bool_decide_eq_true in H. wp_use (apply (init_continue_keep _ _ (x_uq s) (x_late s) (ok_ev OInitReq s)); [apply ok_init; split; [by apply init_lt|done]|]; eapply J_same; [apply J_ev; [exact HJ|done]|reflexivity..]).
      intros [] s1 ev1. apply J_Jd.
    + apply J_Jd. eapply J_same; [apply J_ev; [exact HJ|done]|reflexivity..].
  - unfold user. cbn in HR. assert (release_act u \/ ~ release_act u) as [Hr|Hr] by (destruct u; cbn; tauto).
    + destruct u; try done. cbn [act]. unfold release. wps; cycle 1.
      { apply J_Jd. eapply J_same; [apply J_ev; [exact HJ|done]|reflexivity..]. }
      unfold resume. wps. set (s1 := w_res s _).
      assert (HJ1 : J (x_uq s) (x_late s) (ok_ev (OUser (URelease i)) s) s1 ([] ++ [EvRelease i])) by (eapply J_same; [apply J_ev; [exact HJ|done]|reflexivity..]).
      change (x_st s1) with (x_st s). destruct (x_st s) eqn:Es; wps; try (by apply J_Jd).
      * wp_use (apply (init_continue_keep _ _ (x_uq s) (x_late s) (ok_ev (OUser (URelease i)) s)); [|exact HJ1]). { apply ok_init. split; [by apply init_lt|done]. } intros [] s2 ev2. apply J_Jd.
      * apply shutdown_continue_keep; [|done]. apply (ok_down (OUser (URelease i))). split; [done|by left].
    + eapply wp_call; [apply wp_and; [|by apply act_false]|].
      * assert (link_act u \/ names_act u \/ ~ (link_act u \/ names_act u)) as Hu by (destruct u; cbn; tauto). rewrite (assoc or) in Hu. destruct Hu as [Hu|Hu].
        { apply (act_keep _ (x_uq s) (x_late s) (ok_ev (OUser u) s)); [apply ok_init; split; [auto|done]|done]. }
        { apply (act_misc _ (x_uq s) (x_late s) (ok_ev (OUser u) s)); [done|intros; right; by eexists|tauto|tauto|done]. }
      * intros b s1 ev1 [H1 ->]. wps; [done|]. by apply J_Jd.
  - cbn in HR. wps. destruct (x_pend s !! id) as [q|] eqn:Hq; wps; [|by apply J_Jd]. destruct HR. by apply resp_post.
  - cbn in HR. wps. destruct (x_pend s !! id) as [q|] eqn:Hq; wps.
    + split; [|constructor]. cbn. rewrite Hq. split_and!; [done..|]. right. eapply tracked_mono; [exact HT|cbn; lia|done| |]; cbn; [|eauto].
      intros c i Hc Hp. rewrite lookup_delete_ne; [done|]. intros ->. rewrite Hq in Hp. by destruct q.
    + split; [|constructor]. cbn. rewrite Hq. auto.
  - cbn in HR. wps. destruct (x_late s) as [|q l] eqn:Hl; wps.
    + split; [|constructor]. cbn. rewrite Hl. auto.
    + assert (HJ1 : J (x_uq s) (late_after OLate s) (ok_ev OLate s) (w_late s l) []) by (cbn; rewrite Hl; split; [done|constructor]).
      assert (HI : in_init s -> init_ok (ok_ev OLate s)) by (intros [? ?]; apply ok_init; split; [by apply init_lt|done]).
      destruct q as [a|n|n|c]; try (by specialize (HL _ (elem_of_list_here _ _))); cbn [respond] in *.
      * eapply wp_mono; [apply (on_registration_keep _ _ _ _ _ _ _ _ _ HJ1); [auto|done]|intros [] s2 ev2; apply J_Jd].
      * eapply wp_mono; [apply (on_discovery_keep _ _ _ _ _ _ _ _ _ _ HJ1); [apply HR|auto|done]|intros [] s2 ev2; apply J_Jd].
  - unfold on_link_request. wps; apply J_Jd.
    + apply J_ev; [apply J_ev|]; try done. right; eauto.
    + apply J_ev; [apply J_ev|]; try done. right; eauto.
    + split; [|by repeat constructor]. split_and!; [done..|]. eapply tracked_same; [by apply (tracked_cl s c (Some (CPending r)))|done..].
    + split; [|apply Forall_cons; split; [done|apply Forall_cons; split; [right; eauto|constructor]]]. split_and!; [done..|]. by apply (tracked_cl s c (Some COperational)).
  - unfold on_unlink_notify. wps. destruct (x_cl s !! c) as [x|] eqn:Hc; [|wps; by apply J_Jd, J_ev].
    assert (forall s1, tracked s1 -> x_st s1 = x_st s -> x_uq s1 = x_uq s -> x_late s1 = x_late s -> wp false (down_resume unl) (fun _ s' e => post (OUnlinkNotify c) s s' e) s1 [EvGotNotify c]) as Hd.
    { intros s1 T1 E1 E2 E3. unfold down_resume. wps.
      - apply bool_decide_eq_true in H. apply (shutdown_continue_keep _ (x_uq s) (x_late s)); [apply (ok_down (OUnlinkNotify c)); split; [done|left; congruence]|]. split; [done|by repeat constructor].
      - split; [|by repeat constructor]. split_and!; [done..|by right]. }
    destruct x as [r| |id]; unfold discard_request; wps.
    + apply Hd; try done. by apply (tracked_cl s c None).
    + apply Hd; try done. by apply (tracked_cl s c None).
    + apply Hd; try done. destruct HT as [T1 T2]. split; [|done]. cbn. intros c' i. rewrite lookup_delete_Some. intros [Hn Hc']. destruct (T1 _ _ Hc') as (E1 & E2 & E3). split_and!; [done| |done].
      rewrite lookup_delete_ne; [done|]. intros ->. destruct (T1 _ _ Hc) as (_ & F2 & _). congruence.
  - unfold forget_link. wps. destruct (x_sv s !! a) as [x|] eqn:Ha; wps.
    + assert (HJ1 : J (uq_after (OUnlinkReq a) s) (x_late s) (ok_ev (OUnlinkReq a) s) (w_uq s (x_uq s ++ [a])) []) by (cbn; rewrite Ha; split; [done|constructor]).
      eapply wp_call; [apply wp_and; [apply (forget_links_keep _ (uq_after (OUnlinkReq a) s) (x_late s) (ok_ev (OUnlinkReq a) s)); [|exact HJ1]|apply forget_links_st]|].
      { intros b Hb. cbn. split; [|right; eauto]. cbn in Hb. rewrite Ha in Hb. apply elem_of_app in Hb as [?|?%elem_of_list_singleton]; [by left|right; congruence]. }
      cbv beta. intros b s1 ev1 [H1 E1]. wps; [|by apply J_Jd, J_ev|by apply J_Jd].
      apply bool_decide_eq_true in Heqb0. apply shutdown_continue_keep; [|done]. apply (ok_down (OUnlinkReq a)). split; [done|left; cbn in E1; congruence].
    + split; [|constructor]. cbn. rewrite Ha. auto.
  - wps; [|apply J_Jd; eapply J_same; [exact HJ|reflexivity..]]. apply andb_true_iff in H as [_ H]. apply bool_decide_eq_true in H.
    eapply wp_mono; [apply (init_continue_keep _ _ (x_uq s) (x_late s) (ok_ev OSubscribed s)); [apply ok_init; split; [by apply init_lt|done]|eapply J_same; [exact HJ|reflexivity..]]|intros [] s2 ev2; apply J_Jd].
  - unfold set_state. wps; [|apply J_Jd; eapply J_same; [apply J_ev; [exact HJ|by apply bool_decide_eq_true in H]|reflexivity..]|by apply J_Jd].
    eapply wp_call; [apply keep_each|cbv beta; intros _ s1 ev1 H1; wps; apply J_Jd; eapply J_same; [exact H1|reflexivity..]].
    + intros [c x] Hx s1 ev1 H1. apply elem_of_map_to_list in Hx. cbn in Hx. destruct x; cbn [answer_pending]; wps; try exact H1. destruct H1 as [(F1 & F2 & T) Hf]. split; [|apply Forall_app_2; [done|]; apply Forall_cons; split; [by left|constructor]].
      split_and!; [exact F1|exact F2|]. by apply (tracked_cl s1 c (Some COperational)).
    + eapply J_same; [apply J_ev; [exact HJ|by apply bool_decide_eq_true in H]|reflexivity..].
  - unfold set_state. wps; [|by apply J_Jd]. apply N.ltb_lt in H. apply shutdown_continue_keep; [apply (ok_down OShutReq); split; [done|by right]|].
    eapply J_same; [apply J_ev; [exact HJ|done]|reflexivity..].
  - unfold down_resume. wps; [|apply J_Jd; eapply J_same; [exact HJ|reflexivity..]]. apply bool_decide_eq_true in H.
    apply shutdown_continue_keep; [apply (ok_down OUnsubscribed); split; [done|by left]|]. eapply J_same; [exact HJ|reflexivity..].
Qed.
Lemma local_step o s s' e : lrule o s -> tracked s -> (forall q, q ∈ x_late s -> link_query q = false) -> x_st s <> AShutDown ->
  astep cfg ra unl s o = Ok (s', e) -> post o s s' e.
Proof.
  intros HR HT HL Hst He. refine (wp_step _ (fun _ s' e => post o s s' e) _ _ _ _ He). unfold aprog. wps; [by apply bool_decide_eq_true in Heqb|]. by apply step_post.
Qed.
Lemma dead_step o s s' e : x_st s = AShutDown -> astep cfg ra unl s o = Ok (s', e) -> s' = s /\ e = [].
Proof. intros Hst. unfold astep, to_step, aprog, bnd, get, skip, ret. rewrite bool_decide_eq_true_2 by done. by intros [= <- <-]. Qed.
End op.
