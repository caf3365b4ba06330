(** C63: how many links an actor asks for, and how many messages that takes. *)
From stdpp Require Import base list gmap.
From Verif Require Import Base Prog ActorModel ActorSpec ActorMoves ActorReach ActorProofs ActorFacts ActorSteps NetModel CostSpec.
Open Scope N_scope.
Local Open Scope prog_scope.

Lemma count_app {A} (f : A -> bool) l l' : count f (l ++ l') = (count f l + count f l')%nat.
Proof. unfold count. by rewrite filter_app, app_length. Qed.
Lemma count_one {A} (f : A -> bool) x : count f [x] = if f x then 1%nat else 0%nat.
Proof. unfold count. rewrite filter_cons. destruct (f x) eqn:E; [by rewrite decide_True|by rewrite decide_False]. Qed.
Lemma count_none {A} (f : A -> bool) l : Forall (fun x => f x = false) l -> count f l = 0%nat.
Proof. induction 1 as [|x l Hx _ IH]; [done|]. unfold count. rewrite filter_cons, decide_False; [done|]. by rewrite Hx. Qed.
Lemma count_le {A} (f g : A -> bool) l : (forall x, f x = true -> g x = true) -> (count f l <= count g l)%nat.
Proof.
  intros H. induction l as [|x l IH]; [done|]. change (x :: l) with ([x] ++ l). rewrite !count_app, !count_one. pose proof (H x). destruct (f x), (g x); lia || naive_solver.
Qed.

Definition is_req (x : aev) : bool := match x with EvLinkReq _ _ _ => true | _ => false end.
Definition no_req (o : aop) : Prop := match o with OLinkReq _ _ _ => False | _ => True end.
Section down.
Context (cfg : plug -> list uact) (unl : bool) (nr : bool) (k : nat).
Definition within (s : astore) (ev : list aev) : Prop := (count is_link ev + to_configure cfg s <= k)%nat /\ (nr = true -> count is_req ev = 0%nat).
Notation FI := within.

Lemma FI_emit s ev x : is_link x = false -> is_req x = false -> FI s ev -> FI s (ev ++ [x]).
Proof. unfold within. intros Hx Hy [H1 H2]. rewrite !count_app, !count_one, Hx, Hy. split; [lia|]. intros Hn. specialize (H2 Hn). lia. Qed.
Lemma FI_same s s' ev : x_conf s' = x_conf s -> FI s ev -> FI s' ev.
Proof. unfold within, to_configure. by intros ->. Qed.
Notation fine := (fun (_ : unit) s ev => FI s ev).
Notation finb := (fun (_ : bool) s ev => FI s ev).
Ltac fl1 :=
  first
  [ assumption
  | apply FI_emit; [done|done|]
  | match goal with |- FI (?w ?s ?v) _ => apply (FI_same s); [reflexivity|] end ].
Ltac fl := psimpl; repeat fl1.
Ltac wf := wps; fl.

Lemma each_fine {B} (l : list B) (f : B -> P unit) s ev : (forall x s ev, x ∈ l -> FI s ev -> wp false (f x) fine s ev) -> FI s ev -> wp false (each l f) fine s ev.
Proof. intros H Hs. apply (wp_each false l f FI); [|done]. intros x s1 ev1 Hx Hi1. by apply H. Qed.
Lemma notify_fine s ev : FI s ev -> wp false notify_shutdown fine s ev.
Proof.
  intros H. unfold notify_shutdown. wps. apply each_fine; [|done]. intros [c x] s1 ev1 _ Hi1. unfold notify_client, request. destruct x; wf.
Qed.
Lemma forget_all_fine l s ev : FI s ev -> wp false (forget_all unl l) finb s ev.
Proof.
  revert s ev. induction l as [|a l IH]; intros s ev H; cbn [forget_all]; [by wps|].
  unfold forget_one. wps. destruct (x_sv s !! a); wps; (wp_use (apply IH; fl)); intros b s1 ev1 Hi1; by wps.
Qed.
Lemma forget_links_fine s ev : FI s ev -> wp false (forget_links unl) finb s ev.
Proof. intros H. unfold forget_links. wps; [by apply forget_all_fine|done]. Qed.
Lemma client_shutdown_fine s ev : FI s ev -> wp false (client_shutdown unl) finb s ev.
Proof.
  intros H. unfold client_shutdown. wps; [done|]. wp_use (by apply forget_links_fine). intros b s1 ev1 Hi1. wps.
  - wp_use (apply each_fine; [|exact Hi1]). 2: { intros [] s2 ev2 Hi2. by wps. }
    intros [a x] s2 ev2 _ Hi2. unfold leave_server, discard_request. wps. destruct (sr_st x); wf.
  - wp_use (by apply notify_fine). intros [] s2 ev2 Hi2. by wps.
Qed.
Lemma registry_shutdown_fine s ev : FI s ev -> wp false registry_shutdown finb s ev.
Proof.
  intros H. unfold registry_shutdown. wps. wp_use (apply each_fine; [|exact H]). { intros [n x] s1 ev1 _ Hi1. wf. }
  intros [] s1 ev1 Hi1. wps. wp_use (apply each_fine; [|by fl]).
  { intros [n t] s2 ev2 _ Hi2. unfold cancel_task. wf. }
  intros [] s2 ev2 Hi2. wf.
Qed.
Lemma shutdown_loop_fine l s ev : FI s ev -> wp false (shutdown_loop unl l) fine s ev.
Proof.
  revert s ev. induction l as [|p l IH]; intros s ev H; cbn [shutdown_loop]; unfold reaction_down.
  - unfold shutdown_finish, set_state. wf.
  - wps; [|by apply IH]. apply (wp_call _ _ _ finb).
    + destruct p; cbn [handle_shutdown]; [by wps| |by apply client_shutdown_fine|by apply registry_shutdown_fine|by wps|by wps].
      wp_use (by apply notify_fine). intros [] s1 ev1 Hi1. by wps.
    + intros b s1 ev1 Hi1. wps; [apply IH|]; fl.
Qed.
Lemma shutdown_continue_fine s ev : FI s ev -> wp false (shutdown_continue unl) fine s ev.
Proof. intros H. unfold shutdown_continue. wps. by apply shutdown_loop_fine. Qed.
End down.

Section cost.
Context (cfg : plug -> list uact) (reg_addr : N) (unl : bool) (nr : bool).
Notation FI := (within cfg nr).
Notation fine k := (fun (_ : unit) s ev => FI k s ev).
Notation finb k := (fun (_ : bool) s ev => FI k s ev).
Ltac fl1 :=
  first
  [ assumption
  | apply FI_emit; [done|done|]
  | match goal with |- FI _ (?w ?s ?v) _ => apply (FI_same cfg nr _ s); [reflexivity|] end ].
Ltac fl := psimpl; repeat fl1.
Ltac wf := wps; fl.
Lemma link_fine k a o cb s ev : FI k s ev -> wp false (link a o cb) (fine (S k)) s ev.
Proof.
  intros H. unfold link, request, reaction_init. wps. psimpl. unfold within, to_configure in *. rewrite !count_app, !count_one. cbn [is_link is_req].
  psimpl. destruct H as [H1 H2]. split; [lia|]. intros Hn. specialize (H2 Hn). lia.
Qed.
Lemma FI_more k s ev : FI k s ev -> FI (S k) s ev.
Proof. unfold within. intros [? ?]; split; [lia|done]. Qed.
Lemma act_fine k u s ev : FI k s ev -> wp false (act reg_addr u) (finb (S k)) s ev.
Proof.
  intros H. destruct u; cbn [act].
  - wp_use (by apply link_fine). intros [] s1 ev1 Hi1. by wps.
  - unfold register_name, link_registry. wps.
    + wp_use (apply link_fine; by fl). intros [] s1 ev1 Hi1. wf.
    + apply FI_more. fl.
  - unfold discover_name, link_registry. wps.
    + wp_use (apply link_fine; by fl). intros [] s1 ev1 Hi1. wf.
    + apply FI_more. fl.
  - apply FI_more in H. unfold acquire, reaction_init, reaction_down. wf.
  - apply FI_more in H. unfold release. wf.
  - apply FI_more in H. wf.
Qed.
Lemma acts_fine l k s ev : FI k s ev -> wp false (each l (fun u => act reg_addr u ;; skip)) (fine (length l + k)%nat) s ev.
Proof.
  revert k s ev. induction l as [|u l IH]; intros k s ev H; cbn [each length]; [by wps|].
  wps. wp_use (by apply act_fine). intros b s1 ev1 Hi1. wps. replace (S (length l) + k)%nat with (length l + S k)%nat by lia. by apply IH.
Qed.
Lemma to_configure_upd s p : x_conf s p = false -> (to_configure cfg (w_conf s (updp (x_conf s) p true)) + length (cfg p) = to_configure cfg s)%nat.
Proof.
  intros H. unfold to_configure, plugs. psimpl. unfold updp. cbn [sum_list_with].
  destruct p; repeat (case_decide; [try done|try done]); rewrite H; lia.
Qed.
Lemma configure_once_fine k p s ev : FI k s ev -> wp false (configure_once cfg reg_addr p) (fine k) s ev.
Proof.
  intros H. unfold configure_once, configure. wps; [|done]. apply negb_true_iff in H0.
  pose proof (to_configure_upd s p H0) as E. assert (length (cfg p) <= k)%nat by (unfold within in H; lia).
  assert (exists j, k = (length (cfg p) + j)%nat) as [j ->] by (exists (k - length (cfg p))%nat; lia).
  apply acts_fine. unfold within in *. destruct H; split; [lia|done].
Qed.
Lemma init_loop_fine k l s ev : FI k s ev -> wp false (init_loop cfg reg_addr l) (fine k) s ev.
Proof.
  revert s ev. induction l as [|p l IH]; intros s ev H; cbn [init_loop]; unfold reaction_init.
  - unfold init_finish, set_state. wf.
  - wps; [|by apply IH]. apply (wp_call _ _ _ (finb k)).
    + destruct p; cbn [handle_init]; unfold reaction_init; try by wps.
      1-3: wp_use (by apply configure_once_fine); intros [] s1 ev1 Hi1; by wps.
      wps; [|done]. wp_use (by apply configure_once_fine). intros [] s1 ev1 Hi1. wf.
    + intros b s1 ev1 Hi1. wps; [apply IH|]; fl.
Qed.
Lemma init_continue_fine k s ev : FI k s ev -> wp false (init_continue cfg reg_addr) (fine k) s ev.
Proof. intros H. unfold init_continue. wps. apply init_loop_fine. fl. Qed.
Lemma resume_fine k s ev : FI k s ev -> wp false (resume cfg reg_addr unl) (fine k) s ev.
Proof. intros H. unfold resume. wps. destruct (x_st s); wps; try done; [by apply init_continue_fine|by apply (shutdown_continue_fine cfg)]. Qed.

Lemma user_fine k u s ev : FI k s ev -> wp false (user cfg reg_addr unl u) (fine (S k)) s ev.
Proof. intros H. unfold user. wp_use (by apply act_fine). intros b s1 ev1 Hi1. wps; [by apply resume_fine|done]. Qed.
Lemma continue_init_fine k ok s ev : FI k s ev -> wp false (continue_init cfg reg_addr ok) (fine k) s ev.
Proof. intros H. unfold continue_init. wps; [by apply init_continue_fine|fl]. Qed.
Lemma post_discovery_fine k n ok s ev : FI k s ev -> wp false (post_discovery cfg reg_addr unl n ok) (fine k) s ev.
Proof.
  intros H. unfold post_discovery. wps. destruct (x_dm s !! n) as [t|]; [|by wps].
  apply (wp_call _ _ _ (fine k)).
  - destruct (t_addr t ≫= (x_al s !!.)); [|wf]. apply (each_fine cfg); [|done]. intros m s1 ev1 _ Hi1. wf.
  - intros [] s1 ev1 Hi1. wps; [by apply continue_init_fine|by apply (shutdown_continue_fine cfg)|done].
Qed.
Lemma call_back_fine k cb ok s ev : FI k s ev -> wp false (call_back cfg reg_addr unl cb ok) (fine k) s ev.
Proof.
  intros H. destruct cb; cbn [call_back]; [by wps| |].
  - unfold on_link. wps; [|fl]. wp_use (apply (each_fine cfg); [|by fl]).
    { intros [m y] s1 ev1 Hin Hi1. unfold request. wf. }
    intros [] s1 ev1 Hi1. wps. apply (each_fine cfg); [|done]. intros [m t] s2 ev2 Hin Hi2. unfold do_discover, request.
    wps. apply FI_emit; [by destruct (t_delayed t)..|]. fl.
  - unfold on_task_link. wps. destruct (x_dm s !! n) as [t|]; [|by wps]. destruct (t_addr t ≫= (x_al s !!.)); [|by wps].
    wps. by apply post_discovery_fine.
Qed.
Lemma FI_le k k' s ev : (k <= k')%nat -> FI k s ev -> FI k' s ev.
Proof. unfold within. intros ? [? ?]; split; [lia|done]. Qed.
Lemma respond_fine k q r s ev : FI k s ev -> wp false (respond cfg reg_addr unl q r) (fine (credit (OResp 0 r) + k)%nat) s ev.
Proof.
  intros H. destruct q; cbn [respond].
  - apply (FI_le k (credit (OResp 0 r) + k)) in H; [|lia]. generalize dependent (credit (OResp 0 r) + k)%nat. clear k. intros k H.
    generalize (match r with RpErr => false | _ => true end). intros ok. unfold on_link_response. wps. destruct (x_sv s !! a) as [x|]; [|by wps].
    wps; (wp_use (apply (call_back_fine k); fl)); intros [] s1 ev1 Hi1; wps; try (by fl); apply init_continue_fine; fl.
  - apply (FI_le k (credit (OResp 0 r) + k)) in H; [|lia]. generalize dependent (credit (OResp 0 r) + k)%nat. clear k. intros k H.
    generalize (match r with RpErr => false | _ => true end). intros ok. unfold on_registration. wps.
    + apply continue_init_fine. fl.
    + fl.
  - unfold on_discovery. wps. destruct (x_dm s !! n) as [t|] eqn:Et; [|by wps]. destruct r as [| |a]; cbn [credit Nat.add].
    1,2: apply post_discovery_fine; fl.
    wps; [|by apply post_discovery_fine; apply FI_more; fl]. psimpl. destruct (x_al s !! a); [apply FI_more in H; wf|].
    wp_use (apply (link_fine k); fl). intros [] s1 ev1 Hi1. wf.
  - apply (FI_le k (credit (OResp 0 r) + k)) in H; [|lia]. generalize dependent (credit (OResp 0 r) + k)%nat. clear k. intros k H.
    generalize (match r with RpErr => false | _ => true end). intros ok. unfold on_unlink_response, down_resume. wps; [fl|apply (shutdown_continue_fine cfg); fl|fl].
Qed.
Lemma aprog_fine k o s ev : (nr = true -> no_req o) -> FI k s ev -> wp false (aprog cfg reg_addr unl o) (fine (credit o + k)%nat) s ev.
Proof.
  intros Ho H. unfold aprog. wps; [apply (FI_le k); [lia|done]|]. destruct o; cbn [astep_live credit Nat.add]; wps; try (by fl).
  - apply init_continue_fine. fl.
  - by apply user_fine.
  - destruct (x_pend s !! id); wps; [apply respond_fine; fl|]. apply (FI_le k); [lia|done].
  - destruct (x_pend s !! id); wf.
  - destruct (x_late s); wps; [done|apply (respond_fine k q RpErr); fl].
  - assert (Hn : nr = false) by (destruct nr; [by destruct (Ho eq_refl)|done]).
    assert (FI k s (ev ++ [EvLinkReq c r oponly])). { unfold within in *. rewrite Hn in *. rewrite count_app, count_one. cbn [is_link]. destruct H; split; [lia|done]. }
    unfold on_link_request. wf.
  - unfold on_unlink_notify, discard_request, down_resume. wps. destruct (x_cl s !! c) as [[]|]; wps; try (by fl); apply (shutdown_continue_fine cfg); fl.
  - unfold forget_link. wps. destruct (x_sv s !! a); wps; [|done]. wp_use (apply (forget_links_fine cfg unl nr k); fl). intros b s1 ev1 Hi1. wps; [by apply (shutdown_continue_fine cfg)|fl|fl].
  - apply init_continue_fine. fl.
  - unfold set_state. wps; [|fl]. wp_use (apply (each_fine cfg); [|by fl]). 2: { intros [] s1 ev1 Hi2. wf. } intros [c x] s1 ev1 _ Hi2. unfold answer_pending. destruct x; wf.
  - unfold set_state. wps. apply (shutdown_continue_fine cfg). fl.
  - unfold down_resume. wps; [apply (shutdown_continue_fine cfg); fl|fl].
Qed.
End cost.
(** One operation asks for as many links as its part of configure() allows, and one more
    if user code runs or a name is discovered. *)
Lemma astep_links cfg reg_addr unl o s s' e : astep cfg reg_addr unl s o = Ok (s', e) -> (count is_link e + to_configure cfg s' <= to_configure cfg s + credit o)%nat.
Proof.
  intros H. assert (H0 : within cfg false (to_configure cfg s) s []) by (split; [cbn; lia|done]).
  pose proof (aprog_fine cfg reg_addr unl false (to_configure cfg s) o s [] ltac:(done) H0) as HW. unfold astep, to_step in H. unfold wp in HW.
  destruct (aprog cfg reg_addr unl o s) as [[[s1 e1] a1]| |]; [|done..]. simplify_eq. destruct HW as [HW _]. cbn [app] in HW. lia.
Qed.
(** Only a link request is noted as a link request. *)
Lemma astep_reqs cfg reg_addr unl o s s' e : no_req o -> astep cfg reg_addr unl s o = Ok (s', e) -> count is_req e = 0%nat.
Proof.
  intros Ho H. assert (H0 : within cfg true (to_configure cfg s) s []) by (split; [cbn; lia|done]).
  pose proof (aprog_fine cfg reg_addr unl true (to_configure cfg s) o s [] ltac:(done) H0) as HW. unfold astep, to_step in H. unfold wp in HW.
  destruct (aprog cfg reg_addr unl o s) as [[[s1 e1] a1]| |]; [|done..]. simplify_eq. destruct HW as [_ HW]. by apply HW.
Qed.
Lemma astep_req cfg reg_addr unl c r o s s' e : astep cfg reg_addr unl s (OLinkReq c r o) = Ok (s', e) -> e = [] \/ exists l, e = EvLinkReq c r o :: l /\ count is_req l = 0%nat.
Proof.
  intros H. unfold astep, to_step, aprog, bnd, get in H. case_bool_decide; [cbn in H; simplify_eq; by left|]. right.
  cbn [astep_live] in H. unfold on_link_request, bnd, emit, get, ret, modify in H. cbn in H. repeat case_match; simplify_eq; eexists; by split.
Qed.
