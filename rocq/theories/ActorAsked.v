(** What an actor sends about links and discoveries is what its user asked for:
    the address and the flag of a link, the kind of a discovery. *)
From stdpp Require Import base list gmap.
From Verif Require Import Base Prog ActorModel ActorSpec ActorMoves ActorReach ActorProofs ActorFacts ActorSteps.
Open Scope N_scope.
Local Open Scope prog_scope.

(** User code asks for [u], in configure() or later on. *)
Definition asks (cfg : plug -> list uact) (ops : list aop) (u : uact) : Prop := (exists p, u ∈ cfg p) \/ OUser u ∈ ops.
(** The origin of a link: the user, the plugin of the names which needs the registry,
    or a discovery which came to this address. *)
Definition link_origin (A : uact -> Prop) (ra : N) (ev : list aev) (a : N) (o : bool) : Prop :=
  A (ULink a o) \/ (a = ra /\ o = false /\ exists u, A u /\ (exists n, u = URegister n \/ exists d o', u = UDiscover n d o')) \/
  exists n d, A (UDiscover n d o) /\ EvDiscResp n (Some a) ∈ ev.

Section asked.
Context (cfg : plug -> list uact) (reg_addr : N) (unl : bool) (A : uact -> Prop) (Hcfg : forall p u, u ∈ cfg p -> A u).

Definition just (ev : list aev) (x : aev) : Prop :=
  match x with
  | EvLink a o _ => link_origin A reg_addr ev a o
  | EvPromise n _ => exists o, A (UDiscover n true o)
  | EvDisc n _ => exists o, A (UDiscover n false o)
  | EvCancel n => exists o, A (UDiscover n true o)
  | EvReg n _ => A (URegister n)
  | _ => True
  end.
Record FI (s : astore) (ev : list aev) : Prop := {
  fi_dm : forall n t, x_dm s !! n = Some t -> A (UDiscover n (t_delayed t) (t_oponly t));
  fi_rm : forall n r, x_rm s !! n = Some r -> A (URegister n);
  fi_ev : forall x, x ∈ ev -> just ev x }.

Lemma just_app ev e x : just ev x -> just (ev ++ e) x.
Proof.
  destruct x; try done. intros [H|[H|(n & d & H1 & H2)]]; [by left|by right; left|]. right; right. exists n, d. split; [done|]. apply elem_of_app. by left.
Qed.
Lemma FI_emit s ev x : just (ev ++ [x]) x -> FI s ev -> FI s (ev ++ [x]).
Proof.
  intros Hx [H1 H2 H3]. split; [done..|]. intros y [Hy| ->%elem_of_list_singleton]%elem_of_app; [|done]. apply just_app, H3, Hy.
Qed.
Lemma FI_same s s' ev : x_dm s' = x_dm s -> x_rm s' = x_rm s -> FI s ev -> FI s' ev.
Proof. intros E1 E2 [H1 H2 H3]. split; [by rewrite E1|by rewrite E2|done]. Qed.
Lemma FI_dm s ev n t : A (UDiscover n (t_delayed t) (t_oponly t)) -> FI s ev -> FI (w_dm s (<[n := t]> (x_dm s))) ev.
Proof.
  intros Ht [H1 H2 H3]. split; [|done..]. intros m u Hu. cbn in Hu. destruct (decide (m = n)) as [->|Hne].
  - rewrite lookup_insert in Hu. by simplify_eq.
  - rewrite lookup_insert_ne in Hu; [|done]. by apply H1.
Qed.
Lemma FI_dm_del s ev n : FI s ev -> FI (w_dm s (delete n (x_dm s))) ev.
Proof. intros [H1 H2 H3]. split; [|done..]. intros m u Hu. cbn in Hu. apply lookup_delete_Some in Hu as [_ Hu]. by apply H1. Qed.
Lemma FI_rm s ev n r : A (URegister n) -> FI s ev -> FI (w_rm s (<[n := r]> (x_rm s))) ev.
Proof.
  intros Ht [H1 H2 H3]. split; [done| |done]. intros m u Hu. cbn in Hu. destruct (decide (m = n)) as [->|Hne]; [done|].
  rewrite lookup_insert_ne in Hu; [|done]. by eapply H2.
Qed.
Lemma FI_rm_del s ev n : FI s ev -> FI (w_rm s (delete n (x_rm s))) ev.
Proof. intros [H1 H2 H3]. split; [done| |done]. intros m u Hu. cbn in Hu. apply lookup_delete_Some in Hu as [_ Hu]. by eapply H2. Qed.
Lemma FI_rm_none s ev : FI s ev -> FI (w_rm s ∅) ev.
Proof. intros [H1 H2 H3]. by split. Qed.

Notation fine := (fun (_ : unit) s ev => FI s ev).
Notation finb := (fun (_ : bool) s ev => FI s ev).
Ltac fl1 :=
  first
  [ assumption
  | apply FI_emit; [done|]
  | apply FI_dm_del | apply FI_rm_del | apply FI_rm_none
  | match goal with |- FI (?w ?s ?v) _ => apply (FI_same s); [reflexivity|reflexivity|] end ].
Ltac fl := psimpl; repeat fl1.
Ltac wf := wps; fl.

Lemma each_fine {B} (l : list B) (f : B -> P unit) s ev : (forall x s ev, x ∈ l -> FI s ev -> wp false (f x) fine s ev) -> FI s ev -> wp false (each l f) fine s ev.
Proof. intros H Hs. apply (wp_each false l f FI); [|done]. intros x s1 ev1 Hx Hi1. by apply H. Qed.
Lemma notify_fine s ev : FI s ev -> wp false notify_shutdown fine s ev.
Proof.
  intros H. unfold notify_shutdown. wps. apply each_fine; [|done]. intros [c x] s1 ev1 _ Hi1. unfold notify_client, request. destruct x; wf.
Qed.
Lemma forget_all_fine l s ev : FI s ev -> wp false (forget_all unl l) finb s ev.
Proof.
  revert s ev. induction l as [|a l IH]; intros s ev H; cbn [forget_all]; [by wps|].
  unfold forget_one. wps. destruct (x_sv s !! a); wps; (wp_use (apply IH; fl)); intros b s1 ev1 Hi1; by wps.
Qed.
Lemma forget_links_fine s ev : FI s ev -> wp false (forget_links unl) finb s ev.
Proof. intros H. unfold forget_links. wps; [by apply forget_all_fine|done]. Qed.
Lemma client_shutdown_fine s ev : FI s ev -> wp false (client_shutdown unl) finb s ev.
Proof.
  intros H. unfold client_shutdown. wps; [done|]. wp_use (by apply forget_links_fine). intros b s1 ev1 Hi1. wps.
  - wp_use (apply each_fine; [|exact Hi1]). 2: { intros [] s2 ev2 Hi2. by wps. }
    intros [a x] s2 ev2 _ Hi2. unfold leave_server, discard_request. wps. destruct (sr_st x); wf.
  - wp_use (by apply notify_fine). intros [] s2 ev2 Hi2. by wps.
Qed.
Lemma registry_shutdown_fine s ev : FI s ev -> wp false registry_shutdown finb s ev.
Proof.
  intros H. unfold registry_shutdown. wps. wp_use (apply each_fine; [|exact H]). { intros [n x] s1 ev1 _ Hi1. wf. }
  intros [] s1 ev1 Hi1. wps. wp_use (apply each_fine; [|by apply FI_rm_none]).
  { intros [n t] s2 ev2 Hin Hi2. apply elem_of_map_to_list in Hin. cbn in Hin. pose proof (fi_dm _ _ Hi1 n t Hin) as Ht.
    unfold cancel_task. wps; [|by fl]. apply FI_dm; [done|]. apply FI_emit; [|done]. cbn [just]. apply andb_true_iff in Heqb as [Hd _].
    rewrite Hd in Ht. by eexists. }
  intros [] s2 ev2 Hi2. wf.
Qed.
Lemma shutdown_loop_fine l s ev : FI s ev -> wp false (shutdown_loop unl l) fine s ev.
Proof.
  revert s ev. induction l as [|p l IH]; intros s ev H; cbn [shutdown_loop]; unfold reaction_down.
  - unfold shutdown_finish, set_state. wf.
  - wps; [|by apply IH]. apply (wp_call _ _ _ finb).
    + destruct p; cbn [handle_shutdown]; [by wps| |by apply client_shutdown_fine|by apply registry_shutdown_fine|by wps|by wps].
      wp_use (by apply notify_fine). intros [] s1 ev1 Hi1. by wps.
    + intros b s1 ev1 Hi1. wps; [apply IH|]; fl.
Qed.
Lemma shutdown_continue_fine s ev : FI s ev -> wp false (shutdown_continue unl) fine s ev.
Proof. intros H. unfold shutdown_continue. wps. by apply shutdown_loop_fine. Qed.
Lemma link_fine a o cb s ev : link_origin A reg_addr ev a o -> FI s ev -> wp false (link a o cb) fine s ev.
Proof.
  intros Ho H. unfold link, request, reaction_init. wps. psimpl. fl1. apply FI_emit; [|fl]. cbn [just]. by apply (just_app ev _ (EvLink a o 0)).
Qed.
Lemma act_fine u s ev : A u -> FI s ev -> wp false (act reg_addr u) finb s ev.
Proof.
  intros Hu H. destruct u; cbn [act].
  - wp_use (apply link_fine; [by left|done]). intros [] s1 ev1 Hi1. by wps.
  - unfold register_name, link_registry. wps.
    + wp_use (apply link_fine; [|by fl]). { right; left. eauto 10. } intros [] s1 ev1 Hi1. wps. apply FI_rm; [done|fl].
    + apply FI_rm; [done|fl].
  - unfold discover_name, link_registry. wps.
    + wp_use (apply link_fine; [|by fl]). { right; left. eauto 10. } intros [] s1 ev1 Hi1. wps. apply FI_dm; [done|fl].
    + apply FI_dm; [done|fl].
  - unfold acquire, reaction_init, reaction_down. wf.
  - unfold release. wf.
  - wf.
Qed.
Lemma configure_once_fine p s ev : FI s ev -> wp false (configure_once cfg reg_addr p) fine s ev.
Proof.
  intros H. unfold configure_once, configure. wps; [|done]. apply each_fine; [|fl]. intros u s1 ev1 Hu Hi1.
  wp_use (by apply act_fine; [eapply Hcfg|]). intros b s2 ev2 Hi2. by wps.
Qed.
Lemma init_loop_fine l s ev : FI s ev -> wp false (init_loop cfg reg_addr l) fine s ev.
Proof.
  revert s ev. induction l as [|p l IH]; intros s ev H; cbn [init_loop]; unfold reaction_init.
  - unfold init_finish, set_state. wf.
  - wps; [|by apply IH]. apply (wp_call _ _ _ finb).
    + destruct p; cbn [handle_init]; unfold reaction_init; try by wps.
      1-3: wp_use (by apply configure_once_fine); intros [] s1 ev1 Hi1; by wps.
      wps; [|done]. wp_use (by apply configure_once_fine). intros [] s1 ev1 Hi1. wf.
    + intros b s1 ev1 Hi1. wps; [apply IH|]; fl.
Qed.
Lemma init_continue_fine s ev : FI s ev -> wp false (init_continue cfg reg_addr) fine s ev.
Proof. intros H. unfold init_continue. wps. apply init_loop_fine. fl. Qed.
Lemma resume_fine s ev : FI s ev -> wp false (resume cfg reg_addr unl) fine s ev.
Proof. intros H. unfold resume. wps. destruct (x_st s); wps; try done; [by apply init_continue_fine|by apply shutdown_continue_fine]. Qed.
Lemma user_fine u s ev : A u -> FI s ev -> wp false (user cfg reg_addr unl u) fine s ev.
Proof. intros Hu H. unfold user. wp_use (by apply act_fine). intros b s1 ev1 Hi1. wps; [by apply resume_fine|done]. Qed.
Lemma continue_init_fine ok s ev : FI s ev -> wp false (continue_init cfg reg_addr ok) fine s ev.
Proof. intros H. unfold continue_init. wps; [by apply init_continue_fine|fl]. Qed.
Lemma post_discovery_fine n ok s ev : FI s ev -> wp false (post_discovery cfg reg_addr unl n ok) fine s ev.
Proof.
  intros H. unfold post_discovery. wps. destruct (x_dm s !! n) as [t|]; [|by wps].
  apply (wp_call _ _ _ fine).
  - destruct (t_addr t ≫= (x_al s !!.)); [|wf]. apply each_fine; [|done]. intros m s1 ev1 _ Hi1. wf.
  - intros [] s1 ev1 Hi1. wps; [by apply continue_init_fine|by apply shutdown_continue_fine|done].
Qed.
Lemma call_back_fine cb ok s ev : FI s ev -> wp false (call_back cfg reg_addr unl cb ok) fine s ev.
Proof.
  intros H. destruct cb; cbn [call_back]; [by wps| |].
  - unfold on_link. wps; [|fl]. wp_use (apply each_fine; [|by fl]).
    { intros [m y] s1 ev1 Hin Hi1. apply elem_of_map_to_list in Hin. cbn in Hin. unfold request. wps. apply FI_emit; [|fl]. by apply (fi_rm _ _ H m y). }
    intros [] s1 ev1 Hi1. wps. apply each_fine; [|done]. intros [m t] s2 ev2 Hin Hi2. apply elem_of_map_to_list in Hin. unfold do_discover, request.
    pose proof (fi_dm _ _ Hi1 m t Hin) as Ht. wps. apply FI_emit.
    { destruct (t_delayed t); by eexists. }
    fl1. fl1. by apply FI_dm.
  - unfold on_task_link. wps. destruct (x_dm s !! n) as [t|]; [|by wps]. destruct (t_addr t ≫= (x_al s !!.)); [|by wps].
    wps. by apply post_discovery_fine.
Qed.
Lemma respond_fine q r s ev : FI s ev -> wp false (respond cfg reg_addr unl q r) fine s ev.
Proof.
  intros H. destruct q; cbn [respond].
  - generalize (match r with RpErr => false | _ => true end). intros ok. unfold on_link_response. wps. destruct (x_sv s !! a) as [x|]; [|by wps].
    wps; (wp_use (apply call_back_fine; fl)); intros [] s1 ev1 Hi1; wps; try (by fl); apply init_continue_fine; fl.
  - generalize (match r with RpErr => false | _ => true end). intros ok. unfold on_registration. wps.
    + apply continue_init_fine. psimpl. apply bool_decide_eq_true in H0 as [y Hy]. pose proof (fi_rm _ _ H n y Hy).
      destruct ok; [apply FI_rm; [done|]; fl|fl].
    + psimpl. apply bool_decide_eq_true in H0 as [y Hy]. pose proof (fi_rm _ _ H n y Hy). destruct ok; [apply FI_rm; [done|]; fl|fl].
  - generalize (match r with RpAddr a => Some a | _ => None end). intros res. unfold on_discovery. wps. destruct (x_dm s !! n) as [t|] eqn:Et; [|by wps].
    assert (FI s (ev ++ [EvDiscResp n res])) by fl.
    pose proof (fi_dm _ _ H n t Et) as Ht.
    destruct res as [a|]; [|by apply post_discovery_fine].
    assert (FI (w_dm s (<[n := Task (t_delayed t) (t_oponly t) (t_st t) (Some a)]> (x_dm s))) (ev ++ [EvDiscResp n (Some a)])) by by apply FI_dm.
    wps; [|by apply post_discovery_fine]. psimpl. destruct (x_al s !! a); [wps; by apply (FI_same (w_dm s (<[n := Task (t_delayed t) (t_oponly t) (t_st t) (Some a)]> (x_dm s))))|].
    wp_use (apply link_fine; [|done]). { right; right. exists n, (t_delayed t). split; [done|]. apply snoc_elem. }
    intros [] s1 ev1 Hi1. wf.
  - generalize (match r with RpErr => false | _ => true end). intros ok. unfold on_unlink_response, down_resume. wps; [fl|apply shutdown_continue_fine; fl|fl].
Qed.
Lemma aprog_fine o s ev : (forall u, o = OUser u -> A u) -> FI s ev -> wp false (aprog cfg reg_addr unl o) fine s ev.
Proof.
  intros Ho H. unfold aprog. wps; [done|]. destruct o; cbn [astep_live]; wps; try (by fl).
  - apply init_continue_fine. fl.
  - apply user_fine; [by apply Ho|done].
  - destruct (x_pend s !! id); wps; [apply respond_fine; fl|done].
  - destruct (x_pend s !! id); wf.
  - destruct (x_late s); wps; [done|apply respond_fine; fl].
  - unfold on_link_request. wf.
  - unfold on_unlink_notify, discard_request, down_resume. wps. destruct (x_cl s !! c) as [[]|]; wps; try (by fl); apply shutdown_continue_fine; fl.
  - unfold forget_link. wps. destruct (x_sv s !! a); wps; [|done]. wp_use (apply forget_links_fine; fl). intros b s1 ev1 Hi1. wps; [by apply shutdown_continue_fine|fl|fl].
  - apply init_continue_fine. fl.
  - unfold set_state. wps; [|fl]. wp_use (apply each_fine; [|by fl]). 2: { intros [] s1 ev1 Hi2. wf. } intros [c x] s1 ev1 _ Hi2. unfold answer_pending. destruct x; wf.
  - unfold set_state. wps. apply shutdown_continue_fine. fl.
  - unfold down_resume. wps; [apply shutdown_continue_fine; fl|fl].
Qed.
End asked.

(** [just] at the end of a run. *)
Lemma arun_asked cfg ra unl ops s ev : run (astep cfg ra unl) ainit ops = Ok (s, ev) -> forall x, x ∈ ev -> just ra (asks cfg ops) ev x.
Proof.
  intros Hr.
  assert (HC : forall p u, u ∈ cfg p -> asks cfg ops u) by (intros p u Hu; left; by exists p).
  assert (HF : FI ra (asks cfg ops) s ([] ++ ev)); [|apply HF].
  refine (wp_run (aprog cfg ra unl) (fun _ o => o ∈ ops) (fun s ev => FI ra (asks cfg ops) s ev) _ ops ainit [] s ev _ _ Hr).
  - intros o s1 ev1 Ho Hi1. apply aprog_fine; [done| |done]. intros u ->. by right.
  - split; [done..|]. by intros x ?%elem_of_nil.
  - assert (HG : forall l s, (forall o, o ∈ l -> o ∈ ops) -> guarded (fun s o => to_step (aprog cfg ra unl o) s) (fun _ o => o ∈ ops) s l).
    { clear. intros l. induction l as [|o l IH]; intros s H; cbn; [done|]. split; [apply H; left|]. destruct (to_step (aprog cfg ra unl o) s) as [[]| |]; [|done..].
      apply IH. intros o' Ho'. apply H. by right. }
    by apply HG.
Qed.
