(** Which answers of the registry an actor sees in a step. *)
From stdpp Require Import base list gmap.
From Verif Require Import Base Prog ActorModel ActorSpec ActorMoves ActorReach ActorSteps NamesLocal.
Open Scope N_scope.
Local Open Scope prog_scope.

Definition resp_ev (x : aev) : bool := match x with EvRegResp _ _ | EvDiscResp _ _ | EvLinkReq _ _ _ => true | _ => false end.
Definition dereg_ev (x : aev) : bool := match x with EvDereg _ => true | _ => false end.

Section pass.
Context (cfg : plug -> list uact) (ra : N) (unl : bool) (ok : aev -> Prop).
Context (Hok : forall x, resp_ev x = false -> dereg_ev x = false -> ok x).
Notation A := (fun (s : astore) (ev : list aev) => Forall ok ev).
Definition keepsE {B} (m : prog astore aev B) : Prop := forall s ev, Forall ok ev -> wp false m (fun _ _ => Forall ok) s ev.
Lemma ev_add ev x : Forall ok ev -> resp_ev x = false -> dereg_ev x = false -> Forall ok (ev ++ [x]).
Proof. intros H HZ H2. apply Forall_app_2; [done|]. repeat constructor. by apply Hok. Qed.
Lemma ev_one ev x : Forall ok ev -> ok x -> Forall ok (ev ++ [x]).
Proof. intros H HZ. apply Forall_app_2; [done|]. by repeat constructor. Qed.
Ltac fin := cbv beta; repeat first [assumption | apply ev_add; [|reflexivity|reflexivity]].
Lemma keeps_each {B} (l : list B) (f : B -> prog astore aev unit) : (forall x, x ∈ l -> keepsE (f x)) -> keepsE (each l f).
Proof. intros H s ev HA. apply (wp_each false l f A); [|done]. intros x s1 ev1 Hx HZ. by apply H. Qed.

Lemma link_keeps a o cb : keepsE (link a o cb).
Proof. intros s ev H. unfold link, reaction_init, request. wps. fin. Qed.
Lemma act_keeps u : keepsE (act ra u).
Proof.
  intros s ev H. destruct u; cbn [act]; unfold register_name, discover_name, link_registry, acquire, release, reaction_init, reaction_down; wps.
  all: try (wp_use (by apply link_keeps); intros _ s1 ev1 HZ); wps; fin.
Qed.
Lemma configure_keeps p : keepsE (configure cfg ra p).
Proof. apply keeps_each. intros u _ s ev H. wp_use (by apply act_keeps). intros b s1 ev1 HZ. by wps. Qed.
Lemma configure_once_keeps p : keepsE (configure_once cfg ra p).
Proof. intros s ev H. unfold configure_once. wps; [|done]. by apply configure_keeps. Qed.
Lemma handle_init_keeps p : keepsE (handle_init cfg ra p).
Proof.
  intros s ev H. destruct p; cbn [handle_init]; wps; try done; try (wp_use (by apply configure_once_keeps)); try (intros _ s1 ev1 HZ; wps); try done.
  unfold reaction_init. by wps.
Qed.
Lemma init_loop_keeps l : keepsE (init_loop cfg ra l).
Proof.
  induction l as [|p l IH]; intros s ev H; cbn [init_loop]; unfold init_finish, set_state; wps; [fin| |by apply IH].
  wp_use (by apply handle_init_keeps). intros b s1 ev1 HZ. unfold reaction_init. wps; [apply IH|]; fin.
Qed.
Lemma init_continue_keeps : keepsE (init_continue cfg ra).
Proof. intros s ev H. unfold init_continue. wps. by apply init_loop_keeps. Qed.
Lemma continue_init_keeps b : keepsE (continue_init cfg ra b).
Proof. intros s ev H. unfold continue_init. wps; [by apply init_continue_keeps|fin]. Qed.
Lemma on_registration_keeps n b s ev : Forall ok ev -> ok (EvRegResp n b) -> wp false (on_registration cfg ra n b) (fun _ _ => Forall ok) s ev.
Proof. intros H Hr. unfold on_registration. wps; [apply continue_init_keeps|]; by apply ev_one. Qed.
Lemma on_link_keeps b : keepsE (on_link b).
Proof.
  intros s ev H. unfold on_link. wps; [|done].
  wp_use (apply keeps_each; [|done]; intros [m x] _ s1 ev1 HZ; unfold request; wps; fin). intros _ s1 ev1 HZ. wps.
  apply keeps_each; [|done]. intros [m t] _ s2 ev2 H2. unfold do_discover, request. wps. apply ev_one; [done|]. apply Hok; by destruct (t_delayed t).
Qed.
Lemma notify_keeps : keepsE notify_shutdown.
Proof.
  intros s ev H. unfold notify_shutdown. wps. apply keeps_each; [|done]. intros [c x] _ s1 ev1 HZ. unfold notify_client, request. destruct x; wps; fin.
Qed.
Lemma forget_all_keeps l : keepsE (forget_all unl l).
Proof.
  induction l as [|a l IH]; intros s ev H; cbn [forget_all]; [by wps|]. unfold forget_one. wps. destruct (x_sv s !! a); wps; (wp_use (apply IH; fin)); intros b s1 ev1 HZ; by wps.
Qed.
Lemma forget_links_keeps : keepsE (forget_links unl).
Proof. intros s ev H. unfold forget_links. wps; [|done]. by apply forget_all_keeps. Qed.
Lemma client_shutdown_keeps : keepsE (client_shutdown unl).
Proof.
  intros s ev H. unfold client_shutdown. wps; [done|]. wp_use (by apply forget_links_keeps). intros _ s1 ev1 HZ. wps.
  - wp_use (apply keeps_each; [|done]; intros [a x] _ s2 ev2 H2; unfold leave_server, discard_request; wps; destruct (sr_st x); wps; fin). intros _ s2 ev2 H2. by wps.
  - wp_use (by apply notify_keeps). intros _ s2 ev2 H2. by wps.
Qed.
Section dereg.
Context (Hd : forall m, ok (EvDereg m)).
Lemma registry_shutdown_keeps : keepsE registry_shutdown.
Proof.
  intros s ev H. unfold registry_shutdown. wps.
  wp_use (apply keeps_each; [|done]; intros [n x] _ s1 ev1 HZ; wps; [by apply ev_one|done]). intros _ s1 ev1 HZ. wps.
  wp_use (apply keeps_each; [|done]; intros [n t] _ s2 ev2 H2; unfold cancel_task; wps; fin). intros _ s2 ev2 H2. by wps.
Qed.
Lemma shutdown_loop_keeps l : keepsE (shutdown_loop unl l).
Proof.
  induction l as [|p l IH]; intros s ev H; cbn [shutdown_loop].
  - unfold shutdown_finish, set_state. wps; fin.
  - wps; [|by apply IH]. eapply (wp_call false _ _ (fun _ => A)).
    + destruct p; cbn [handle_shutdown]; wps; try done.
      * wp_use (by apply notify_keeps). intros _ s1 ev1 HZ. by wps.
      * by apply client_shutdown_keeps.
      * by apply registry_shutdown_keeps.
    + intros b s1 ev1 HZ. unfold reaction_down. wps; [apply IH|]; fin.
Qed.
Lemma shutdown_continue_keeps : keepsE (shutdown_continue unl).
Proof. intros s ev H. unfold shutdown_continue. wps. by apply shutdown_loop_keeps. Qed.
Lemma down_resume_keeps : keepsE (down_resume unl).
Proof. intros s ev H. unfold down_resume. wps; [by apply shutdown_continue_keeps|done]. Qed.
Lemma user_keeps u : keepsE (user cfg ra unl u).
Proof.
  intros s ev H. unfold user. wp_use (by apply act_keeps). intros b s1 ev1 HZ. wps; [|done]. unfold resume. wps. destruct (x_st s1); wps; try done; [by apply init_continue_keeps|by apply shutdown_continue_keeps].
Qed.
Lemma post_discovery_keeps n b : keepsE (post_discovery cfg ra unl n b).
Proof.
  intros s ev H. unfold post_discovery. wps. destruct (x_dm s !! n) as [t|]; [|by wps].
  eapply (wp_call false _ _ (fun _ => A)).
  - destruct (t_addr t ≫= _) as [l|]; [|by wps]. apply keeps_each; [|done]. intros m _ s1 ev1 HZ. by wps.
  - intros _ s1 ev1 HZ. wps; [by apply continue_init_keeps|by apply shutdown_continue_keeps|done].
Qed.
Lemma on_discovery_keeps n r s ev : Forall ok ev -> ok (EvDiscResp n r) -> wp false (on_discovery cfg ra unl n r) (fun _ _ => Forall ok) s ev.
Proof.
  intros H Hr. unfold on_discovery. wps. destruct (x_dm s !! n) as [t|]; [|by wps]. destruct r as [a|]; wps.
  - wps. destruct (x_al s !! a) as [l|]; wps; [by apply ev_one|]. wp_use (apply link_keeps; by apply ev_one). intros _ s1 ev1 HZ. by wps.
  - apply post_discovery_keeps. by apply ev_one.
  - apply post_discovery_keeps. by apply ev_one.
Qed.
Lemma call_back_keeps cb b : keepsE (call_back cfg ra unl cb b).
Proof.
  intros s ev H. destruct cb as [| |n]; cbn [call_back]; [by wps|by apply on_link_keeps|]. unfold on_task_link. wps. destruct (x_dm s !! n) as [t|]; wps. destruct (t_addr t ≫= _) as [l|]; wps.
  by apply post_discovery_keeps.
Qed.
Lemma on_link_response_keeps a b : keepsE (on_link_response cfg ra unl a b).
Proof.
  intros s ev H. unfold on_link_response. wps. destruct (x_sv s !! a) as [x|]; [|by wps]. eapply (wp_call false _ _ (fun _ => A)).
  - destruct b; cbn [negb]; wps; fin.
  - intros _ s1 ev1 HZ. wp_use (by apply call_back_keeps). intros _ s2 ev2 H2. destruct b; wps; try fin. wps; try fin. apply init_continue_keeps. fin.
Qed.
Lemma forget_link_keeps a : keepsE (forget_link unl a).
Proof.
  intros s ev H. unfold forget_link. wps. destruct (x_sv s !! a); wps; [|done]. wp_use (by apply forget_links_keeps). intros b s1 ev1 HZ. wps; [by apply shutdown_continue_keeps|fin|done].
Qed.
Lemma on_link_request_keeps c r o s ev : Forall ok ev -> ok (EvLinkReq c r o) -> wp false (on_link_request c r o) (fun _ _ => Forall ok) s ev.
Proof. intros H Hr. unfold on_link_request. pose proof (ev_one _ _ H Hr). wps; fin. Qed.
Lemma on_unlink_notify_keeps c : keepsE (on_unlink_notify unl c).
Proof.
  intros s ev H. unfold on_unlink_notify. wps. destruct (x_cl s !! c) as [x|]; [|wps; fin]. unfold discard_request. destruct x; wps; apply down_resume_keeps; fin.
Qed.
Lemma on_unlink_response_keeps c b : keepsE (on_unlink_response unl c b).
Proof. intros s ev H. unfold on_unlink_response. wps; [fin|]. apply down_resume_keeps. fin. Qed.
End dereg.
End pass.

(** The answer [r] to the request [q] is handled. *)
Definition answers (s : astore) (o : aop) (q : query) (r : reply) : Prop :=
  (exists id, o = OResp id r /\ x_pend s !! id = Some q) \/ o = OLate /\ head (x_late s) = Some q /\ r = RpErr.
Definition name_ok (s : astore) (o : aop) (x : aev) : Prop :=
  match x with
  | EvRegResp m b => exists r, answers s o (QReg m) r /\ b = match r with RpErr => false | _ => true end
  | EvDiscResp m a => exists r, answers s o (QDisc m) r /\ a = match r with RpAddr a => Some a | _ => None end
  | EvDereg _ => forall m r, ~ answers s o (QReg m) r
  | EvLinkReq c r p => o = OLinkReq c r p
  | _ => True
  end.
Lemma step_events cfg ra unl s o s' e : astep cfg ra unl s o = Ok (s', e) -> Forall (name_ok s o) e.
Proof.
  intros Hs. enough (W : wp false (aprog cfg ra unl o) (fun _ _ => Forall (name_ok s o)) s []) by (by apply (wp_step _ _ _ _ _ W Hs)). clear Hs s' e.
  assert (HK : forall x, resp_ev x = false -> dereg_ev x = false -> name_ok s o x) by (intros []; done).
  assert (HR : forall q r s1, answers s o q r -> wp false (respond cfg ra unl q r) (fun _ _ => Forall (name_ok s o)) s1 []).
  { intros q r s1 Ha. assert (HD : (forall m, q <> QReg m) -> forall m, name_ok s o (EvDereg m)).
    { intros Hq m m' r' Ha'. apply (Hq m'). destruct Ha as [(id & -> & E)|(-> & E & _)], Ha' as [(id' & E1 & E')|(E1 & E' & _)]; congruence. }
    destruct q as [a|n|n|c]; cbn [respond].
    - by apply on_link_response_keeps; [|apply HD|].
    - apply on_registration_keeps; [done|done|]. by exists r.
    - apply on_discovery_keeps; [done|by apply HD|done|]. by exists r.
    - by apply on_unlink_response_keeps; [|apply HD|]. }
  assert (HD : (forall q r, ~ answers s o q r) -> forall m, name_ok s o (EvDereg m)) by (intros H m m' r' Ha; by destruct (H _ _ Ha)).
  assert (HN : (forall id r, o <> OResp id r) -> o <> OLate -> forall q r, ~ answers s o q r) by (intros HZ H2 q r [(id & -> & _)|(-> & _)]; [by apply (HZ id r)|done]).
  unfold aprog. wps; [done|]. destruct o; cbn [astep_live]; wps; try done.
  - apply init_continue_keeps; [done|]. by repeat constructor.
  - by repeat constructor.
  - apply user_keeps; [done|by apply HD, HN|done].
  - destruct (x_pend s !! id) as [q|] eqn:E; wps; [|done]. apply HR. left. eauto.
  - destruct (x_pend s !! id) as [q|] eqn:E; wps; done.
  - destruct (x_late s) as [|q l] eqn:E; wps; [done|]. apply HR. right. by rewrite E.
  - by apply on_link_request_keeps.
  - apply on_unlink_notify_keeps; [done|by apply HD, HN|done].
  - apply forget_link_keeps; [done|by apply HD, HN|done].
  - by apply init_continue_keeps.
  - unfold set_state. wps.
    + wp_use (apply (keeps_each (name_ok s OStart)); [|by repeat constructor]; intros [c x] _ s1 ev1 HZ; unfold answer_pending; destruct x; wps; try done; apply ev_one; done). intros _ s1 ev1 HZ. by wps.
    + by repeat constructor.
  - unfold set_state. wps. apply shutdown_continue_keeps; [done|by apply HD, HN|]. by repeat constructor.
  - apply down_resume_keeps; [done|by apply HD, HN|done].
Qed.
