(** The state changes of one actor, step by step. *)
From stdpp Require Import base list gmap.
From Verif Require Import Base Prog ActorModel ActorSpec ActorMoves ActorReach ActorProofs ActorFacts ActorSteps NetSettle.
Open Scope N_scope.
Local Open Scope prog_scope.

Definition chg (x : aev) : option (astate * astate) := match x with EvState a b => Some (a, b) | _ => None end.
Definition chgs (ev : list aev) : list (astate * astate) := omap chg ev.
Lemma chgs_app e1 e2 : chgs (e1 ++ e2) = chgs e1 ++ chgs e2.
Proof. apply omap_app. Qed.

Section states.
Context (cfg : plug -> list uact) (reg_addr : N) (unl : bool).
(** What was changed before, the state since then; the init request was there, the
    subscriptions are there. *)
Context (base : list (astate * astate)) (st0 : astate) (ir0 pt0 : bool).

Definition SP (s : astore) (ev : list aev) : Prop :=
  (chgs ev = base /\ x_st s = st0) \/
  (chgs ev = base ++ [(AInitializing, AInitialized)] /\ st0 = AInitializing /\ x_st s = AInitialized /\ ir0 = true /\ x_ireq s = false) \/
  (chgs ev = base ++ [(AShuttingDown, AShutDown)] /\ st0 = AShuttingDown /\ x_st s = AShutDown /\ pt0 = false).
Record SI (s : astore) (ev : list aev) : Prop := {
  si_pts : x_pts s = pt0;
  si_ireq : x_ireq s = true -> ir0 = true;
  si_life : x_st s = AShutDown \/ x_d s PLife = true;
  si_st : SP s ev }.

Lemma SI_emit s ev x : chg x = None -> SI s ev -> SI s (ev ++ [x]).
Proof.
  intros Hx [H1 H2 H3 H4]. split; try done. unfold SP. rewrite chgs_app. cbn. rewrite Hx, app_nil_r. done.
Qed.
Lemma SI_same s s' ev : x_st s' = x_st s -> x_ireq s' = x_ireq s -> x_pts s' = x_pts s -> x_d s' PLife = x_d s PLife -> SI s ev -> SI s' ev.
Proof. intros E1 E2 E3 E4 [H1 H2 H3 H4]. split; rewrite ?E1, ?E2, ?E3, ?E4; try done. unfold SP. rewrite E1, E2. done. Qed.
Lemma SI_now s ev : SI s ev -> x_st s = AInitializing \/ x_st s = AShuttingDown -> chgs ev = base /\ x_st s = st0.
Proof. intros [_ _ _ [H|[(_ & _ & H & _)|(_ & _ & H & _)]]] [E|E]; try done; congruence. Qed.

Notation fine := (fun (_ : unit) s ev => SI s ev).
Notation finb := (fun (_ : bool) s ev => SI s ev).
Ltac fl1 :=
  first
  [ assumption
  | apply SI_emit; [done|]
  | match goal with |- SI (?w ?s ?v) _ => apply (SI_same s); [reflexivity|reflexivity|reflexivity|reflexivity|] end ].
Ltac fl := psimpl; repeat fl1.
Ltac wf := wps; fl.

Lemma each_fine {B} (l : list B) (f : B -> P unit) s ev : (forall x s ev, x ∈ l -> SI s ev -> wp false (f x) fine s ev) -> SI s ev -> wp false (each l f) fine s ev.
Proof. intros H Hs. apply (wp_each false l f SI); [|done]. intros x s1 ev1 Hx Hi1. by apply H. Qed.
Lemma notify_fine s ev : SI s ev -> wp false notify_shutdown fine s ev.
Proof.
  intros H. unfold notify_shutdown. wps. apply each_fine; [|done]. intros [c x] s1 ev1 _ Hi1. unfold notify_client, request. destruct x; wf.
Qed.
Lemma forget_all_fine l s ev : SI s ev -> wp false (forget_all unl l) finb s ev.
Proof.
  revert s ev. induction l as [|a l IH]; intros s ev H; cbn [forget_all]; [by wps|].
  unfold forget_one. wps. destruct (x_sv s !! a); wps; (wp_use (apply IH; fl)); intros b s1 ev1 Hi1; by wps.
Qed.
Lemma forget_links_fine s ev : SI s ev -> wp false (forget_links unl) finb s ev.
Proof. intros H. unfold forget_links. wps; [by apply forget_all_fine|done]. Qed.
Lemma client_shutdown_fine s ev : SI s ev -> wp false (client_shutdown unl) finb s ev.
Proof.
  intros H. unfold client_shutdown. wps; [done|]. wp_use (by apply forget_links_fine). intros b s1 ev1 Hi1. wps.
  - wp_use (apply each_fine; [|exact Hi1]). 2: { intros [] s2 ev2 Hi2. by wps. }
    intros [a x] s2 ev2 _ Hi2. unfold leave_server, discard_request. wps. destruct (sr_st x); wf.
  - wp_use (by apply notify_fine). intros [] s2 ev2 Hi2. by wps.
Qed.
Lemma registry_shutdown_fine s ev : SI s ev -> wp false registry_shutdown finb s ev.
Proof.
  intros H. unfold registry_shutdown. wps. wp_use (apply each_fine; [|exact H]). { intros [n x] s1 ev1 _ Hi1. wf. }
  intros [] s1 ev1 Hi1. wps. wp_use (apply each_fine; [|by fl]).
  { intros [n t] s2 ev2 Hin Hi2. unfold cancel_task. wf. }
  intros [] s2 ev2 Hi2. wf.
Qed.
(** The plugins do not change the state by their votes. *)
Lemma vote_fine p s ev : SI s ev -> wp false (handle_shutdown unl p) (fun b s' ev' => SI s' ev' /\ (p = PLife -> b = true -> x_pts s' = false)) s ev.
Proof.
  intros H. destruct p; cbn [handle_shutdown].
  - wps. split; [done|]. intros _ Hb. by apply negb_true_iff in Hb.
  - wp_use (by apply notify_fine). intros [] s1 ev1 Hi1. by wps.
  - wp_use (by apply client_shutdown_fine). intros b s1 ev1 Hi1. done.
  - wp_use (by apply registry_shutdown_fine). intros b s1 ev1 Hi1. done.
  - by wps.
  - by wps.
Qed.
Lemma SI_down s ev : SI s ev -> x_st s = AShuttingDown -> x_pts s = false -> SI (ActorModel.w_st s AShutDown) (ev ++ [EvState AShuttingDown AShutDown]).
Proof.
  intros H Hs Hp. destruct (SI_now _ _ H ltac:(by right)) as [E1 E2]. destruct H as [H1 H2 H3 H4].
  split; cbn; try done; [by left|]. right; right. rewrite chgs_app, E1. cbn. split_and!; congruence.
Qed.
Lemma vote_same p s ev : wp false (handle_shutdown unl p) (fun _ s' _ => x_st s' = x_st s) s ev.
Proof.
  destruct p; cbn [handle_shutdown]; try by wps.
  - wp_use (by apply notify_settles). intros [] s1 ev1 ((E & _) & _). by wps.
  - wp_use (by apply client_settles). intros b s1 ev1 ((E & _) & _). done.
  - wp_use (by apply registry_settles). intros b s1 ev1 ((E & _) & _). done.
Qed.
Lemma shutdown_loop_fine l s ev : SI s ev -> x_st s = AShuttingDown -> PLife ∉ l -> wp false (shutdown_loop unl (l ++ [PLife])) fine s ev.
Proof.
  revert s ev. induction l as [|p l IH]; intros s ev H Hs Hl; cbn [shutdown_loop app]; unfold reaction_down.
  - wps; [|destruct (si_life _ _ H); congruence]. cbn [handle_shutdown]. wps; [|fl].
    unfold shutdown_finish, set_state. apply negb_true_iff in Heqb0.
    assert (HD : SI (ActorModel.w_st s AShutDown) ((ev ++ [EvShutVote PLife (negb (x_pts s))]) ++ [EvState AShuttingDown AShutDown])).
    { apply (SI_down s); [fl|done|done]. }
    assert (HS : forall e, chgs e = [] -> SI (ActorModel.w_st s AShutDown) (ev ++ e ++ [EvState AShuttingDown AShutDown])).
    { intros e He. destruct (SI_down s ev H Hs Heqb0) as [A1 A2 A3 A4]. split; try done. unfold SP in *. rewrite !chgs_app, He in *. done. }
    assert (HT : forall s' e, x_st s' = AShutDown -> x_ireq s' = x_ireq s -> x_pts s' = x_pts s -> chgs e = [] -> SI s' (ev ++ e ++ [EvState AShuttingDown AShutDown])).
    { intros s' e E1 E2 E3 He. destruct (HS e He) as [A1 A2 A3 A4]. cbn in *. split; [congruence|by rewrite E2|by left|]. unfold SP in *. cbn in A4. rewrite E1, E2. done. }
    wps; psimpl; rewrite Hs; rewrite <- ?app_assoc; cbn [app].
    + rewrite <- ?app_assoc; cbn [app]. apply (HT _ [_; _]); done.
    + apply (HT _ [_]); done.
  - apply not_elem_of_cons in Hl as [Hp Hl]. wps; [|by apply IH].
    wp_use (apply wp_and; [by apply vote_fine|by apply vote_same]). intros b s1 ev1 [[Hi1 _] Hs1]. wps; [|fl]. apply IH; [|cbn; congruence|done].
    apply SI_emit; [done|]. apply (SI_same s1); try done. cbn. unfold updp. by rewrite decide_False.
Qed.
Lemma shutdown_continue_fine s ev : SI s ev -> wp false (shutdown_continue unl) fine s ev.
Proof. intros H. unfold shutdown_continue. wps. apply bool_decide_eq_true in H0. apply (shutdown_loop_fine [PRs; PRg; PLc; PLs]); [done|done|]. set_solver. Qed.
Lemma link_fine a o cb s ev : SI s ev -> wp false (link a o cb) fine s ev.
Proof. intros H. unfold link, request, reaction_init. wf. Qed.
Lemma act_fine u s ev : SI s ev -> wp false (act reg_addr u) finb s ev.
Proof.
  intros H. destruct u; cbn [act].
  - wp_use (by apply link_fine). intros [] s1 ev1 Hi1. by wps.
  - unfold register_name, link_registry. wps.
    + wp_use (apply link_fine; by fl). intros [] s1 ev1 Hi1. wf.
    + fl.
  - unfold discover_name, link_registry. wps.
    + wp_use (apply link_fine; by fl). intros [] s1 ev1 Hi1. wf.
    + fl.
  - unfold acquire, reaction_init, reaction_down. wf.
  - unfold release. wf.
  - wf.
Qed.
Lemma configure_once_fine p s ev : SI s ev -> wp false (configure_once cfg reg_addr p) fine s ev.
Proof.
  intros H. unfold configure_once, configure. wps; [|done]. apply each_fine; [|fl]. intros u s1 ev1 Hu Hi1.
  wp_use (by apply act_fine). intros b s2 ev2 Hi2. by wps.
Qed.
(** Nor do they when the actor initializes. *)
Definition still (s s' : astore) : Prop := x_st s' = x_st s /\ x_ireq s' = x_ireq s.
Lemma each_still {B} (l : list B) (f : B -> P unit) s ev : (forall x s ev, wp false (f x) (fun _ s' _ => still s s') s ev) -> wp false (each l f) (fun _ s' _ => still s s') s ev.
Proof. intros H. apply (wp_each false l f (fun s' _ => still s s')); [|done]. intros x s1 ev1 _ [E1 E2]. wp_use (by apply H). intros [] s2 ev2 [? ?]. split; congruence. Qed.
Lemma act_still u s ev : wp false (act reg_addr u) (fun _ s' _ => still s s') s ev.
Proof.
  destruct u; cbn [act]; unfold link, register_name, discover_name, link_registry, link, acquire, release, request, reaction_init, reaction_down; by wps.
Qed.
Lemma configure_still p s ev : wp false (configure_once cfg reg_addr p) (fun _ s' _ => still s s') s ev.
Proof.
  unfold configure_once, configure. wps; [|done]. wp_use (apply (each_still _ _ (w_conf s (updp (x_conf s) p true)))).
  { intros u s1 ev1. wp_use (by apply act_still). intros b s2 ev2 ?. by wps. } intros [] s1 ev1 [? ?]. by split.
Qed.
Lemma poll_fine p s ev : SI s ev -> wp false (handle_init cfg reg_addr p) (fun _ s' ev' => SI s' ev' /\ still s s') s ev.
Proof.
  intros H. assert (HC : forall p, wp false (configure_once cfg reg_addr p) (fun _ s' ev' => SI s' ev' /\ still s s') s ev).
  { intros q. apply wp_and; [by apply configure_once_fine|by apply configure_still]. }
  destruct p; cbn [handle_init]; unfold reaction_init; try by wps.
  1-3: wp_use (apply HC); intros [] s1 ev1 [Hi1 ?]; by wps.
  wps; [|done]. wp_use (apply HC). intros [] s1 ev1 [Hi1 [? ?]]. wps; (split; [fl|done]).
Qed.
Lemma init_loop_fine l s ev : SI s ev -> x_st s = AInitializing -> x_ireq s = true -> wp false (init_loop cfg reg_addr l) fine s ev.
Proof.
  revert s ev. induction l as [|p l IH]; intros s ev H Hs Hr; cbn [init_loop]; unfold reaction_init.
  - unfold init_finish, set_state. wps. psimpl. rewrite Hs. destruct (SI_now _ _ H ltac:(by left)) as [E1 E2]. destruct H as [H1 H2 H3 H4].
    split; cbn; try done; [right; by destruct H3; congruence|]. right; left. rewrite !chgs_app, E1. cbn. rewrite app_nil_r. split_and!; try done; [congruence|by apply H2].
  - wps; [|by apply IH]. wp_use (by apply poll_fine). intros b s1 ev1 [Hi1 [E1 E2]]. wps; [apply IH; [fl|cbn; congruence..]|fl].
Qed.
Lemma init_continue_fine s ev : SI s ev -> wp false (init_continue cfg reg_addr) fine s ev.
Proof. intros H. unfold init_continue. wps. apply bool_decide_eq_true in H0. apply init_loop_fine; [fl|done|done]. Qed.
Lemma resume_fine s ev : SI s ev -> wp false (resume cfg reg_addr unl) fine s ev.
Proof. intros H. unfold resume. wps. destruct (x_st s); wps; try done; [by apply init_continue_fine|by apply shutdown_continue_fine]. Qed.
Lemma user_fine u s ev : SI s ev -> wp false (user cfg reg_addr unl u) fine s ev.
Proof. intros H. unfold user. wp_use (by apply act_fine). intros b s1 ev1 Hi1. wps; [by apply resume_fine|done]. Qed.
Lemma continue_init_fine ok s ev : SI s ev -> wp false (continue_init cfg reg_addr ok) fine s ev.
Proof. intros H. unfold continue_init. wps; [by apply init_continue_fine|fl]. Qed.
Lemma post_discovery_fine n ok s ev : SI s ev -> wp false (post_discovery cfg reg_addr unl n ok) fine s ev.
Proof.
  intros H. unfold post_discovery. wps. destruct (x_dm s !! n) as [t|]; [|by wps].
  apply (wp_call _ _ _ fine).
  - destruct (t_addr t ≫= (x_al s !!.)); [|wf]. apply each_fine; [|done]. intros m s1 ev1 _ Hi1. wf.
  - intros [] s1 ev1 Hi1. wps; [by apply continue_init_fine|by apply shutdown_continue_fine|done].
Qed.
Lemma call_back_fine cb ok s ev : SI s ev -> wp false (call_back cfg reg_addr unl cb ok) fine s ev.
Proof.
  intros H. destruct cb; cbn [call_back]; [by wps| |].
  - unfold on_link. wps; [|fl]. wp_use (apply each_fine; [|by fl]).
    { intros [m y] s1 ev1 Hin Hi1. unfold request. wf. }
    intros [] s1 ev1 Hi1. wps. apply each_fine; [|done]. intros [m t] s2 ev2 Hin Hi2. unfold do_discover, request.
    wps. apply SI_emit; [by destruct (t_delayed t)|]. fl.
  - unfold on_task_link. wps. destruct (x_dm s !! n) as [t|]; [|by wps]. destruct (t_addr t ≫= (x_al s !!.)); [|by wps].
    wps. by apply post_discovery_fine.
Qed.
Lemma SI_refuse s ev : SI s ev -> SI (w_ireq s false) ev.
Proof. intros [H1 H2 H3 H4]. split; try done. destruct H4 as [H4|[(? & ? & ? & ? & ?)|H4]]; [by left|right; left; done|right; right; done]. Qed.
Lemma respond_fine q r s ev : SI s ev -> wp false (respond cfg reg_addr unl q r) fine s ev.
Proof.
  intros H. destruct q; cbn [respond].
  - generalize (match r with RpErr => false | _ => true end). intros ok. unfold on_link_response. wps. destruct (x_sv s !! a) as [x|]; [|by wps].
    wps; (wp_use (apply call_back_fine; fl)); intros [] s1 ev1 Hi1; wps; try (by fl); try (apply init_continue_fine; by fl); apply SI_refuse; fl.
  - generalize (match r with RpErr => false | _ => true end). intros ok. unfold on_registration. wps; [apply continue_init_fine|]; fl.
  - generalize (match r with RpAddr a => Some a | _ => None end). intros res. unfold on_discovery. wps. destruct (x_dm s !! n) as [t|] eqn:Et; [|by wps].
    destruct res as [a|]; [|apply post_discovery_fine; fl].
    wps; [|apply post_discovery_fine; fl]. psimpl. destruct (x_al s !! a); [wf|].
    wp_use (apply link_fine; fl). intros [] s1 ev1 Hi1. wf.
  - generalize (match r with RpErr => false | _ => true end). intros ok. unfold on_unlink_response, down_resume. wps; [fl|apply shutdown_continue_fine; fl|fl].
Qed.
Lemma aprog_fine o s ev : (match o with OInitReq => ir0 = true | OStart | OShutReq | OUnsubscribed => False | _ => True end) -> SI s ev -> chgs ev = base /\ x_st s = st0 ->
  wp false (aprog cfg reg_addr unl o) fine s ev.
Proof.
  intros Ho H Hb. unfold aprog. wps; [done|]. destruct o; cbn [astep_live]; try done.
  - assert (HI : SI (w_ireq s true) (ev ++ [EvInitReq])).
    { destruct H as [H1 H2 H3 H4]. split; try done. left. rewrite chgs_app. cbn. by rewrite app_nil_r. }
    wps; [by apply init_continue_fine|done].
  - wps. by apply user_fine.
  - wps. destruct (x_pend s !! id); wps; [apply respond_fine; fl|done].
  - wps. destruct (x_pend s !! id); wf.
  - wps. destruct (x_late s); wps; [done|apply respond_fine; fl].
  - unfold on_link_request. wf.
  - unfold on_unlink_notify, discard_request, down_resume. wps. destruct (x_cl s !! c) as [[]|]; wps; try (by fl); apply shutdown_continue_fine; fl.
  - unfold forget_link. wps. destruct (x_sv s !! a); wps; [|done]. wp_use (apply forget_links_fine; fl). intros b s1 ev1 Hi1. wps; [by apply shutdown_continue_fine|fl|fl].
  - wps; [apply init_continue_fine|]; fl.
Qed.
End states.

(** ** One step of an actor *)
Definition life (s : astore) : Prop := x_st s = AShutDown \/ x_d s PLife = true.
Record moved (o : aop) (s s' : astore) (e : list aev) : Prop := {
  mv_life : life s';
  mv_pts : x_pts s' = match o with OUnsubscribed => if bool_decide (x_st s = AShutDown) then x_pts s else false | _ => x_pts s end;
  mv_ireq : x_ireq s' = true -> x_ireq s = true \/ o = OInitReq;
  mv_st :
    (chgs e = [] /\ x_st s' = x_st s) \/
    (chgs e = [(AInitializing, AInitialized)] /\ x_st s = AInitializing /\ x_st s' = AInitialized /\ (x_ireq s = true \/ o = OInitReq) /\ x_ireq s' = false) \/
    (chgs e = [(AShuttingDown, AShutDown)] /\ x_st s = AShuttingDown /\ x_st s' = AShutDown /\ x_pts s' = false) \/
    (o = OStart /\ chgs e = [(AInitialized, AOperational)] /\ x_st s = AInitialized /\ x_st s' = AOperational) \/
    (o = OShutReq /\ rank (x_st s) < rank AShuttingDown /\
      (chgs e = [(x_st s, AShuttingDown)] /\ x_st s' = AShuttingDown \/
       chgs e = [(x_st s, AShuttingDown); (AShuttingDown, AShutDown)] /\ x_st s' = AShutDown /\ x_pts s = false)) }.

Section step.
Context (cfg : plug -> list uact) (ra : N) (unl : bool).
Lemma moved_gen o s s' e : (match o with OInitReq | OStart | OShutReq | OUnsubscribed => False | _ => True end) -> life s -> astep cfg ra unl s o = Ok (s', e) -> moved o s s' e.
Proof.
  intros Ho HL HS. refine (wp_step (aprog cfg ra unl o) (fun _ s' e => moved o s s' e) s s' e _ HS).
  eapply wp_mono; [apply (aprog_fine cfg ra unl [] (x_st s) (x_ireq s) (x_pts s) o s [])|]; [by destruct o|split; try done; by left|done|].
  intros [] s1 e1 [H1 H2 H3 H4]. split; [done|destruct o; done|auto|]. destruct H4 as [?|[(?&?&?&?&?)|(?&?&?&?)]]; [by left|right; left|right; right; left]; split_and!; try done; [by left|congruence].
Qed.
Lemma moved_init s s' e : life s -> astep cfg ra unl s OInitReq = Ok (s', e) -> moved OInitReq s s' e.
Proof.
  intros HL HS. refine (wp_step (aprog cfg ra unl OInitReq) (fun _ s' e => moved OInitReq s s' e) s s' e _ HS).
  eapply wp_mono; [apply (aprog_fine cfg ra unl [] (x_st s) true (x_pts s) OInitReq s [])|]; [done|split; try done; by left|done|].
  intros [] s1 e1 [H1 H2 H3 H4]. split; [done|done|auto|]. destruct H4 as [?|[(?&?&?&?&?)|(?&?&?&?)]]; [by left|right; left|right; right; left]; split_and!; try done; [by right|congruence].
Qed.
Lemma moved_down s s' e : life s -> astep cfg ra unl s OUnsubscribed = Ok (s', e) -> moved OUnsubscribed s s' e.
Proof.
  intros HL HS. refine (wp_step (aprog cfg ra unl OUnsubscribed) (fun _ s' e => moved OUnsubscribed s s' e) s s' e _ HS).
  unfold aprog. wps.
  - split; [done|by rewrite Heqb|auto|by left].
  - cbn [astep_live]. unfold down_resume. wps.
    + eapply wp_mono; [apply (shutdown_continue_fine unl [] (x_st s) (x_ireq s) false)|].
      { split; try done. by left. }
      intros [] s1 e1 [H1 H2 H3 H4]. split; [done|by rewrite Heqb|auto|]. destruct H4 as [?|[(?&?&?&?&?)|(?&?&?&?)]]; [by left|right; left|right; right; left]; split_and!; try done; by left.
    + split; [done|by rewrite Heqb|auto|by left].
Qed.
Lemma moved_start s s' e : life s -> astep cfg ra unl s OStart = Ok (s', e) -> moved OStart s s' e.
Proof.
  intros HL HS. refine (wp_step (aprog cfg ra unl OStart) (fun _ s' e => moved OStart s s' e) s s' e _ HS).
  unfold aprog. wps; [split; [done|done|auto|by left]|]. cbn [astep_live]. unfold ActorModel.set_state. wps.
  - apply bool_decide_eq_true in H. cbn in H. wp_use (apply (each_fine [(AInitialized, AOperational)] AOperational (x_ireq s) (x_pts s))).
    + intros [c x] s1 ev1 _ Hi1. unfold answer_pending. destruct x; wps; psimpl; [|done..]. apply (SI_same _ _ _ _ s1); try done. by apply SI_emit.
    + split; cbn; try done; [right; by destruct HL; [congruence|]|]. left. by rewrite H.
    + intros [] s1 ev1 [H1 H2 H3 H4]. wps. split; cbn; [done|done|auto|]. right; right; right; left. cbn in H4.
      destruct H4 as [[E1 E2]|[(?&?&?&?&?)|(?&?&?&?)]]; done.
  - apply bool_decide_eq_true in H. cbn in H. split; cbn; [right; by destruct HL; [congruence|]|done|auto|]. right; right; right; left. by rewrite H.
  - split; [done|done|auto|by left].
Qed.
Lemma moved_shut s s' e : life s -> astep cfg ra unl s OShutReq = Ok (s', e) -> moved OShutReq s s' e.
Proof.
  intros HL HS. refine (wp_step (aprog cfg ra unl OShutReq) (fun _ s' e => moved OShutReq s s' e) s s' e _ HS).
  unfold aprog. wps; [split; [done|done|auto|by left]|]. cbn [astep_live]. unfold ActorModel.set_state. wps; [|split; [done|done|auto|by left]].
  apply N.ltb_lt in H. eapply wp_mono; [apply (shutdown_continue_fine unl [(x_st s, AShuttingDown)] AShuttingDown (x_ireq s) (x_pts s))|].
  { split; cbn; try done; [right; destruct HL as [E|?]; [|done]; rewrite E in H; cbn in H; lia|by left]. }
  intros [] s1 e1 [H1 H2 H3 H4]. split; [done|done|auto|]. right; right; right; right. split; [done|]. split; [done|].
  destruct H4 as [[? ?]|[(?&?&?&?&?)|(?&?&?&?)]]; [by left|done|right]. done.
Qed.
Lemma shut_must s s' e : life s -> rank (x_st s) < rank AShuttingDown -> astep cfg ra unl s OShutReq = Ok (s', e) -> exists l, chgs e = (x_st s, AShuttingDown) :: l.
Proof.
  intros HL HR HS. refine (wp_step (aprog cfg ra unl OShutReq) (fun _ s' e => exists l, chgs e = (x_st s, AShuttingDown) :: l) s s' e _ HS).
  unfold aprog. wps; [match goal with H : bool_decide _ = true |- _ => apply bool_decide_eq_true in H; rewrite H in HR; cbn in HR; lia end|]. cbn [astep_live]. unfold ActorModel.set_state. wps; [|match goal with H : (_ <? _) = false |- _ => apply N.ltb_ge in H; lia end].
  apply N.ltb_lt in H. eapply wp_mono; [apply (shutdown_continue_fine unl [(x_st s, AShuttingDown)] AShuttingDown (x_ireq s) (x_pts s))|].
  { split; cbn; try done; [right; destruct HL as [E|?]; [|done]; rewrite E in H; cbn in H; lia|by left]. }
  intros [] s1 e1 [H1 H2 H3 H4]. destruct H4 as [[E ?]|[(E&?&?&?&?)|(E&?&?&?)]]; rewrite E; eauto.
Qed.
Lemma step_moved o s s' e : life s -> astep cfg ra unl s o = Ok (s', e) -> moved o s s' e.
Proof. destruct o; first [apply moved_init|apply moved_start|apply moved_shut|apply moved_down|by apply moved_gen]. Qed.
End step.
