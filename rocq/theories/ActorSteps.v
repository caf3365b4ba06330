(** Single steps of the actor: what an operation makes it do. *)
From stdpp Require Import base list gmap.
From Verif Require Import Base Prog ActorModel ActorSpec ActorMoves ActorReach ActorProofs ActorFacts.
Open Scope N_scope.
Local Open Scope prog_scope.

(** The trace only grows. *)
Lemma wp_elem {S E A} (m : prog S E A) x s ev : x ∈ ev -> wp false m (fun _ _ ev' => x ∈ ev') s ev.
Proof. intros H. unfold wp. destruct (m s) as [[[s1 e1] a]| |]; [|done..]. apply elem_of_app. by left. Qed.
Lemma wp_true {S E A} (m : prog S E A) s ev : wp false m (fun _ _ _ => True) s ev.
Proof. unfold wp. by destruct (m s) as [[[s1 e1] a]| |]. Qed.
Lemma wp_head {S E A} (m : prog S E A) x s ev : head ev = Some x -> wp false m (fun _ _ ev' => head ev' = Some x) s ev.
Proof. intros H. unfold wp. destruct (m s) as [[[s1 e1] a]| |]; [|done..]. by destruct ev. Qed.
(** From the calculus to a step. *)
Lemma wp_step {S E} (m : prog S E unit) (Q : unit -> S -> list E -> Prop) s s' e : wp false m Q s [] -> to_step m s = Ok (s', e) -> Q tt s' e.
Proof. unfold wp, to_step. destruct (m s) as [[[s1 e1] []]| |]; [|done..]. by intros H [= <- <-]. Qed.

Section steps.
Context (cfg : plug -> list uact) (reg_addr : N) (unl : bool).
Notation init_continue := (init_continue cfg reg_addr).
Notation shutdown_continue := (shutdown_continue unl).

(** ** Polling *)
Lemma wp_init_polled {A} (m : P A) s ev : init_polled ev -> wp false m (fun _ _ ev' => init_polled ev') s ev.
Proof. intros (x & Hx & H). eapply wp_mono; [by apply wp_elem|]. intros ? s' ev' ?. by exists x. Qed.
Lemma wp_down_polled {A} (m : P A) s ev : down_polled ev -> wp false m (fun _ _ ev' => down_polled ev') s ev.
Proof. intros (x & Hx & H). eapply wp_mono; [by apply wp_elem|]. intros ? s' ev' ?. by exists x. Qed.
Lemma snoc_elem {E} (x : E) ev : x ∈ ev ++ [x].
Proof. apply elem_of_app. right. by left. Qed.

Lemma init_loop_polls l s ev : wp false (init_loop cfg reg_addr l) (fun _ _ ev' => init_polled ev') s ev.
Proof.
  revert s ev. induction l as [|p l IH]; intros s ev; cbn [init_loop]; unfold reaction_init.
  - unfold init_finish. wps. apply wp_init_polled. exists EvInitOk. split; [apply snoc_elem|by left].
  - wps; [|apply IH]. wp_use (by apply wp_true). intros b s1 ev1 _. wps; [apply IH|].
    exists (EvInitVote p false). split; [apply snoc_elem|eauto].
Qed.
Lemma init_continue_polls s ev : wp false init_continue (fun _ _ ev' => init_polled ev') s ev.
Proof. unfold ActorModel.init_continue. wps. apply init_loop_polls. Qed.
Lemma shutdown_loop_polls l s ev : x_st s = AShuttingDown -> wp false (shutdown_loop unl l) (fun _ _ ev' => down_polled ev') s ev.
Proof.
  revert s ev. induction l as [|p l IH]; intros s ev Hst; cbn [shutdown_loop]; unfold reaction_down.
  - unfold shutdown_finish, set_state. wps; exists (EvState AShuttingDown AShutDown); psimpl; rewrite Hst; (split; [apply snoc_elem|by left]).
  - wps; [|by apply IH]. wp_use (by apply wp_true). intros b s1 ev1 _. apply wp_bnd, wp_emit. apply wp_down_polled.
    exists (EvShutVote p b). split; [apply snoc_elem|eauto].
Qed.
Lemma shutdown_continue_polls s ev : wp false shutdown_continue (fun _ _ ev' => down_polled ev') s ev.
Proof. unfold ActorModel.shutdown_continue. wps. apply bool_decide_eq_true in H. by apply shutdown_loop_polls. Qed.

(** ** PROGRESS_INIT is only set inside of the init loop. *)
Notation idle := (fun (_ : unit) (s : astore) (_ : list aev) => x_prog s = false).
Lemma init_loop_idle l s ev : wp false (init_loop cfg reg_addr l) idle s ev.
Proof.
  revert s ev. induction l as [|p l IH]; intros s ev; cbn [init_loop]; unfold reaction_init.
  - unfold init_finish, set_state. by wps.
  - wps; [|apply IH]. wp_use (by apply wp_true). intros b s1 ev1 _. wps; [apply IH|done].
Qed.
Lemma init_continue_idle s ev : wp false init_continue idle s ev.
Proof. unfold ActorModel.init_continue. wps. apply init_loop_idle. Qed.
Lemma each_idle {A} (l : list A) (f : A -> P unit) s ev : (forall x s ev, x ∈ l -> x_prog s = false -> wp false (f x) idle s ev) -> x_prog s = false -> wp false (each l f) idle s ev.
Proof. intros H Hs. apply (wp_each false l f (fun s _ => x_prog s = false)); [|done]. intros x s1 ev1 Hx Hi1. by apply H. Qed.
Lemma notify_idle s ev : x_prog s = false -> wp false notify_shutdown idle s ev.
Proof.
  intros H. unfold notify_shutdown. wps. apply each_idle; [|done]. intros [c x] s1 ev1 _ Hi1. unfold notify_client. destruct x; [by wps| |by wps].
  unfold request. by wps.
Qed.
Lemma forget_all_idle l s ev : x_prog s = false -> wp false (forget_all unl l) (fun _ s _ => x_prog s = false) s ev.
Proof.
  revert s ev. induction l as [|a l IH]; intros s ev H; cbn [forget_all]; [by wps|].
  unfold forget_one. wps. destruct (x_sv s !! a); wps; (wp_use (by apply IH)); intros b s1 ev1 Hi1; by wps.
Qed.
Lemma forget_links_idle s ev : x_prog s = false -> wp false (forget_links unl) (fun _ s _ => x_prog s = false) s ev.
Proof. intros H. unfold forget_links. wps; [by apply forget_all_idle|done]. Qed.
Lemma client_shutdown_idle s ev : x_prog s = false -> wp false (client_shutdown unl) (fun _ s _ => x_prog s = false) s ev.
Proof.
  intros H. unfold client_shutdown. wps; [done|]. wp_use (by apply forget_links_idle). intros b s1 ev1 Hi1. wps.
  - wp_use (apply each_idle; [|exact Hi1]). 2: { intros [] s2 ev2 Hi2. by wps. }
    intros [a x] s2 ev2 _ Hi2. unfold leave_server, discard_request. wps. destruct (sr_st x); by wps.
  - wp_use (by apply notify_idle). intros [] s2 ev2 Hi2. by wps.
Qed.
Lemma registry_shutdown_idle s ev : x_prog s = false -> wp false registry_shutdown (fun _ s _ => x_prog s = false) s ev.
Proof.
  intros H. unfold registry_shutdown. wps. wp_use (apply each_idle; [|exact H]). { intros [n x] s1 ev1 _ Hi1. by wps. }
  intros [] s1 ev1 Hi1. wps. wp_use (apply each_idle; [|exact Hi1]). { intros [n t] s2 ev2 _ Hi2. unfold cancel_task. by wps. }
  intros [] s2 ev2 Hi2. by wps.
Qed.
Lemma shutdown_loop_idle l s ev : x_prog s = false -> wp false (shutdown_loop unl l) idle s ev.
Proof.
  revert s ev. induction l as [|p l IH]; intros s ev H; cbn [shutdown_loop]; unfold reaction_down.
  - unfold shutdown_finish, set_state. by wps.
  - wps; [|by apply IH]. apply (wp_call _ _ _ (fun _ s _ => x_prog s = false)).
    + destruct p; cbn [handle_shutdown]; [by wps| |by apply client_shutdown_idle|by apply registry_shutdown_idle|by wps|by wps].
      wp_use (by apply notify_idle). intros [] s1 ev1 Hi1. by wps.
    + intros b s1 ev1 Hi1. wps; [by apply IH|done].
Qed.
Lemma shutdown_continue_idle s ev : x_prog s = false -> wp false shutdown_continue idle s ev.
Proof. intros H. unfold ActorModel.shutdown_continue. wps. by apply shutdown_loop_idle. Qed.
Lemma resume_idle s ev : x_prog s = false -> wp false (resume cfg reg_addr unl) idle s ev.
Proof. intros H. unfold resume. wps. destruct (x_st s); wps; try done; [by apply init_continue_idle|by apply shutdown_continue_idle]. Qed.
Lemma link_idle a o cb s ev : x_prog s = false -> wp false (link a o cb) idle s ev.
Proof. intros H. unfold link, request. by wps. Qed.
Lemma act_idle u s ev : x_prog s = false -> wp false (act reg_addr u) (fun _ s _ => x_prog s = false) s ev.
Proof.
  intros H. destruct u; cbn [act].
  - wp_use (by apply link_idle). intros [] s1 ev1 Hi1. by wps.
  - unfold register_name, link_registry. wps; [|done]. wp_use (by apply link_idle). intros [] s1 ev1 Hi1. by wps.
  - unfold discover_name, link_registry. wps; [|done]. wp_use (by apply link_idle). intros [] s1 ev1 Hi1. by wps.
  - unfold acquire, reaction_init, reaction_down. by wps.
  - unfold release. by wps.
  - by wps.
Qed.
Lemma user_idle u s ev : x_prog s = false -> wp false (user cfg reg_addr unl u) idle s ev.
Proof. intros H. unfold user. wp_use (by apply act_idle). intros b s1 ev1 Hi1. wps; [by apply resume_idle|done]. Qed.
Lemma continue_init_idle ok s ev : x_prog s = false -> wp false (continue_init cfg reg_addr ok) idle s ev.
Proof. intros H. unfold continue_init. wps; [by apply init_continue_idle|done]. Qed.
Lemma post_discovery_idle n ok s ev : x_prog s = false -> wp false (post_discovery cfg reg_addr unl n ok) idle s ev.
Proof.
  intros H. unfold post_discovery. wps. destruct (x_dm s !! n) as [t|]; [|by wps].
  apply (wp_call _ _ _ idle).
  - destruct (t_addr t ≫= (x_al s !!.)); [|by wps]. apply each_idle; [|done]. intros m s1 ev1 _ Hi1. by wps.
  - intros [] s1 ev1 Hi1. wps; [by apply continue_init_idle|by apply shutdown_continue_idle|done].
Qed.
Lemma respond_idle q r s ev : x_prog s = false -> wp false (respond cfg reg_addr unl q r) idle s ev.
Proof.
  intros H. destruct q; cbn [respond].
  - generalize (match r with RpErr => false | _ => true end). intros ok. unfold on_link_response. wps. destruct (x_sv s !! a) as [x|]; [|by wps].
    assert (HC : forall s ev, x_prog s = false -> wp false (call_back cfg reg_addr unl (sr_cb x) ok) idle s ev).
    { clear. intros s ev H. destruct (sr_cb x); cbn [call_back]; [by wps| |].
      - unfold on_link. wps; [|done]. wp_use (apply each_idle; [|exact H]). { intros [m y] s1 ev1 _ Hi1. unfold request. by wps. }
        intros [] s1 ev1 Hi1. wps. apply each_idle; [|done]. intros [m t] s2 ev2 _ Hi2. unfold do_discover, request. by wps.
      - unfold on_task_link. wps. destruct (x_dm s !! n) as [t|]; [|by wps]. destruct (t_addr t ≫= (x_al s !!.)); [|by wps].
        wps. by apply post_discovery_idle. }
    wps; (wp_use (by apply HC)); intros [] s1 ev1 Hi1; wps; try done; by apply init_continue_idle.
  - generalize (match r with RpErr => false | _ => true end). intros ok. unfold on_registration. wps; [by apply continue_init_idle|done].
  - generalize (match r with RpAddr a => Some a | _ => None end). intros res. unfold on_discovery. wps. destruct (x_dm s !! n) as [t|]; [|by wps].
    destruct res as [a|]; [|by apply post_discovery_idle]. wps; [|by apply post_discovery_idle]. psimpl. destruct (x_al s !! a); [by wps|].
    wp_use (by apply link_idle). intros [] s1 ev1 Hi1. by wps.
  - generalize (match r with RpErr => false | _ => true end). intros ok. unfold on_unlink_response, down_resume. wps; [done|by apply shutdown_continue_idle|done].
Qed.
Lemma aprog_idle o s ev : x_prog s = false -> wp false (aprog cfg reg_addr unl o) idle s ev.
Proof.
  intros H. unfold aprog. wps; [done|]. destruct o; cbn [astep_live]; wps; try done.
  - by apply init_continue_idle.
  - by apply user_idle.
  - destruct (x_pend s !! id); wps; [by apply respond_idle|done].
  - destruct (x_pend s !! id); by wps.
  - destruct (x_late s); wps; [done|by apply respond_idle].
  - unfold on_link_request. by wps.
  - unfold on_unlink_notify, discard_request, down_resume. wps. destruct (x_cl s !! c) as [[]|]; wps; try done; by apply shutdown_continue_idle.
  - unfold forget_link. wps. destruct (x_sv s !! a); wps; [|done]. wp_use (by apply forget_links_idle). intros b s1 ev1 Hi1. wps; [by apply shutdown_continue_idle|done|done].
  - by apply init_continue_idle.
  - unfold set_state. wps; [|done]. wp_use (apply each_idle; [|done]). 2: { intros [] s1 ev1 Hi2. by wps. } intros [c x] s1 ev1 _ Hi2. unfold answer_pending. destruct x; by wps.
  - unfold set_state. wps. by apply shutdown_continue_idle.
  - unfold down_resume. wps; [by apply shutdown_continue_idle|done].
Qed.
Lemma arun_idle ops s ev : run (astep cfg reg_addr unl) ainit ops = Ok (s, ev) -> x_prog s = false.
Proof.
  intros Hr. refine (wp_run (aprog cfg reg_addr unl) (fun _ _ => True) (fun s _ => x_prog s = false) _ ops ainit [] s ev eq_refl (guarded_true _ _ _) Hr).
  intros o s1 ev1 _ Hi1. by apply aprog_idle.
Qed.

(** ** Releasing the last resource *)
Lemma release_step i s s' e : x_prog s = false -> astep cfg reg_addr unl s (OUser (URelease i)) = Ok (s', e) -> 
  has_any (w_res s (<[i := held s i - 1]> (x_res s))) = false ->
  (x_st s = AInitializing -> init_polled e) /\ (x_st s = AShuttingDown -> down_polled e).
Proof.
  intros Hp Hs Hn. revert Hs.
  apply (wp_step (aprog cfg reg_addr unl (OUser (URelease i))) (fun _ _ e => (x_st s = AInitializing -> init_polled e) /\ (x_st s = AShuttingDown -> down_polled e))).
  unfold aprog. wps; [apply bool_decide_eq_true in Heqb; by rewrite Heqb|]. cbn [astep_live user act]. unfold user, act, release. wps.
  - unfold resume. wps. psimpl. destruct (x_st s) eqn:E; wps; try done.
    + eapply wp_mono; [apply init_continue_polls|]. done.
    + eapply wp_mono; [apply shutdown_continue_polls|]. done.
  - rewrite Hn in H0. psimpl_in H0. by rewrite Hp in H0.
Qed.
(** Every client which says that it is gone lets the shutdown continue. *)
Lemma unlinked_step c s s' e : is_Some (x_cl s !! c) -> x_st s = AShuttingDown ->
  astep cfg reg_addr unl s (OUnlinkNotify c) = Ok (s', e) -> down_polled e.
Proof.
  intros [x Hx] Hst Hs. revert Hs. apply (wp_step (aprog cfg reg_addr unl (OUnlinkNotify c)) (fun _ _ e => down_polled e)).
  unfold aprog. wps; [apply bool_decide_eq_true in Heqb; congruence|]. cbn [astep_live]. unfold on_unlink_notify, discard_request, down_resume. wps.
  rewrite Hx. destruct x; wps; try apply shutdown_continue_polls; psimpl_in H; psimpl_in H0; by rewrite ?Hst, bool_decide_true in *.
Qed.
Lemma unlink_resp_step id c r s s' e : r <> RpErr -> x_pend s !! id = Some (QUnlink c) -> x_st s = AShuttingDown ->
  astep cfg reg_addr unl s (OResp id r) = Ok (s', e) -> down_polled e.
Proof.
  intros Hr Hx Hst Hs. revert Hs. apply (wp_step (aprog cfg reg_addr unl (OResp id r)) (fun _ _ e => down_polled e)).
  unfold aprog. wps; [apply bool_decide_eq_true in Heqb; congruence|]. cbn [astep_live]. wps. rewrite Hx. wps. cbn [respond].
  assert ((match r with RpErr => false | _ => true end) = true) as -> by by destruct r. unfold on_unlink_response, down_resume. wps; [done|apply shutdown_continue_polls|].
  psimpl_in H1. by rewrite Hst, bool_decide_true in H1.
Qed.
(** ** A refused link *)
Lemma call_back_ireq cb s ev : x_st s = AInitializing -> x_ireq s = true -> wp false (call_back cfg reg_addr unl cb false) (fun _ s' _ => x_ireq s' = true) s ev.
Proof.
  intros Hst Hi. destruct cb; cbn [call_back]; [by wps|unfold on_link; by wps|].
  unfold on_task_link. wps. destruct (x_dm s !! n) as [t|] eqn:Et; [|by wps]. destruct (t_addr t ≫= (x_al s !!.)) eqn:Ea; [|by wps]. wps.
  unfold post_discovery. wps. rewrite Et, Ea. eapply wp_bnd, wp_del. unfold continue_init. wps; [done| |].
  - psimpl_in Heqb0. by rewrite Hst, bool_decide_true in Heqb0.
  - done.
Qed.
Lemma link_err_step o s s' e a : (o = OLate \/ exists id, o = OResp id RpErr) -> x_st s = AInitializing -> x_ireq s = true ->
  astep cfg reg_addr unl s o = Ok (s', e) -> head e = Some (EvLinkResp a false) -> EvInitErr PLc ∈ e /\ x_ireq s' = false.
Proof.
  intros Ho Hst Hi Hs.
  assert (HQ : forall q s, x_st s = AInitializing -> x_ireq s = true -> wp false (respond cfg reg_addr unl q RpErr) (fun _ s' e => head e = Some (EvLinkResp a false) -> EvInitErr PLc ∈ e /\ x_ireq s' = false) s []).
  { clear. intros q s Hst Hi.
    assert (Hh : forall x (m : P unit) s, x <> EvLinkResp a false -> wp false m (fun _ s' e => head e = Some (EvLinkResp a false) -> EvInitErr PLc ∈ e /\ x_ireq s' = false) s [x]).
    { intros x m s1 Hx. eapply wp_mono; [by apply (wp_head m x)|]. cbn. intros _ s2 ev2 -> [= ->]. done. }
    destruct q; cbn [respond].
    - unfold on_link_response. wps. destruct (x_sv s !! a0) as [x|]; [|by wps]. wps; [|done].
      wp_use (by apply call_back_ireq). intros [] s1 ev1 Hi1. wps; [|congruence]. intros _. split; [apply snoc_elem|done].
    - unfold on_registration. apply wp_bnd, wp_emit. by apply Hh.
    - unfold on_discovery. apply wp_bnd, wp_emit. by apply Hh.
    - unfold on_unlink_response. wps; done. }
  revert Hs. apply (wp_step (aprog cfg reg_addr unl o) (fun _ s' e => head e = Some (EvLinkResp a false) -> EvInitErr PLc ∈ e /\ x_ireq s' = false)).
  unfold aprog. wps; [by apply bool_decide_eq_true in Heqb; congruence|]. destruct Ho as [-> |[id ->]]; cbn [astep_live]; wps.
  - destruct (x_late s); wps; [done|]. by apply HQ.
  - destruct (x_pend s !! id); wps; [|done]. by apply HQ.
Qed.

(** ** Link requests *)
Lemma link_req_step c r o s s' e : x_st s <> AShutDown -> astep cfg reg_addr unl s (OLinkReq c r o) = Ok (s', e) ->
  e = EvLinkReq c r o ::
      (if bool_decide (x_st s = AShuttingDown) then [EvLinkAns c r LNotLinkable]
       else if bool_decide (is_Some (x_cl s !! c)) then [EvLinkAns c r LAlready]
       else if o && negb (bool_decide (x_st s = AOperational)) then [] else [EvLinkAns c r LOk]).
Proof.
  intros Hst. unfold astep, to_step, aprog, astep_live, on_link_request. cbn -[rank].
  rewrite (bool_decide_false (x_st s = AShutDown)) by done. cbn -[rank].
  destruct (x_st s); try done; cbn; repeat case_bool_decide; destruct o; cbn; by intros [= <- <-].
Qed.
Lemma start_step s s' e : x_s s = true -> x_st s = AInitialized -> astep cfg reg_addr unl s OStart = Ok (s', e) ->
  forall c r, x_cl s !! c = Some (CPending r) -> EvLinkAns c r LOk ∈ e.
Proof.
  intros Hx Hst Hs c r Hc. revert Hs. apply (wp_step (aprog cfg reg_addr unl OStart) (fun _ _ e => EvLinkAns c r LOk ∈ e)).
  unfold aprog. wps; [by apply bool_decide_eq_true in Heqb; congruence|]. cbn [astep_live]. unfold set_state. wps.
  - eapply wp_call.
    + apply (wp_each_list false _ _ (fun l _ ev => (c, CPending r) ∈ l \/ EvLinkAns c r LOk ∈ ev) (fun _ _ ev => EvLinkAns c r LOk ∈ ev)).
      * intros [k x] l s1 ev1 [Hin|Hin]; [|eapply wp_mono; [by apply wp_elem|]; by right]. apply elem_of_cons in Hin as [[= <- <-]|Hin].
        { unfold answer_pending. wps. right. apply snoc_elem. }
        { eapply wp_mono; [apply wp_true|]. by left. }
      * left. by apply elem_of_map_to_list.
      * intros s1 ev1 [?%elem_of_nil|?]; done.
    + intros [] s1 ev1 Hin. by wps.
  - congruence.
  - by rewrite Hst, bool_decide_true in H.
Qed.
End steps.
