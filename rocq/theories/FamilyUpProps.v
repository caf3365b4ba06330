(** C78: a supervisor which initializes can become operational, when nobody ends. *)
From stdpp Require Import base list gmap.
From Verif Require Import Base ChildMgrModel FamilyModel FamilySpec FamilyProps FamilyStartSpec FamilyUpSpec FamilyUpProofs.
Open Scope N_scope.

(** Whenever a supervisor initializes, nothing has failed and nobody is on the way out,
    there is a way to its being operational, whatever is under way: messages are taken,
    factories make their actors, children answer.  It answers its init request only when
    its child manager agrees, nobody is asked to end, and in the end nothing is left. *)
Theorem C78_starts : forall hp policy sync ops s ev, guarded (fstep hp policy sync) orderly (finit hp) ops -> run (fstep hp policy sync) (finit hp) ops = Ok (s, ev) ->
  cm_state (f_cm s) = AInitializing -> peaceful s -> ~ failed ev ->
  exists ops' s' e, Forall smooth ops' /\ guarded (fstep hp policy sync) agreed s ops' /\ run (fstep hp policy sync) s ops' = Ok (s', e) /\
    cm_state (f_cm s') = AOperational /\ ESupStart ∈ e /\ settled s' /\ peaceful s' /\ Forall good_event e.
Proof. exact fam_starts. Qed.

(** Nothing goes wrong by itself: as long as messages are taken, factories make their
    actors and children answer well, nobody is asked to end, removed or reported. *)
Theorem C78_peace : forall hp policy sync ops s ev ops' s' e, guarded (fstep hp policy sync) orderly (finit hp) ops -> run (fstep hp policy sync) (finit hp) ops = Ok (s, ev) -> peaceful s ->
  Forall smooth ops' -> run (fstep hp policy sync) s ops' = Ok (s', e) -> peaceful s' /\ Forall good_event e.
Proof. exact fam_smooth. Qed.

(** Hence no choice among these steps spoils the start: the way stays open. *)
Theorem C78_open : forall hp policy sync ops s ev ops' s' e, guarded (fstep hp policy sync) orderly (finit hp) ops -> run (fstep hp policy sync) (finit hp) ops = Ok (s, ev) -> peaceful s -> ~ failed ev ->
  Forall smooth ops' -> run (fstep hp policy sync) s ops' = Ok (s', e) -> cm_state (f_cm s') = AInitializing ->
  exists ops2 s2 e2, Forall smooth ops2 /\ guarded (fstep hp policy sync) agreed s' ops2 /\ run (fstep hp policy sync) s' ops2 = Ok (s2, e2) /\ cm_state (f_cm s2) = AOperational.
Proof. exact fam_still. Qed.

(** The init request of a root supervisor is in its hands or in its queue until it has
    answered. *)
Theorem C78_request : forall policy sync ops s ev, guarded (fstep false policy sync) orderly (finit false) ops -> run (fstep false policy sync) (finit false) ops = Ok (s, ev) ->
  cm_state (f_cm s) = AInitializing -> EInitError ∉ ev -> 0 ∉ f_bye s -> cm_initreq (f_cm s) = true \/ MInitReq 0 ∈ f_q s.
Proof. exact fam_requested. Qed.

(** A child, and a spawner whose actor has a locality of its own; the spawned actor has
    its init request, the other one has not even been noticed. *)
Definition newsb (m : fmsg) : bool := match m with MCreate _ | MSpawn _ | MInitReq _ | MInitResp _ false => true | _ => false end.
Definition peacefulb (s : fstate) : bool :=
  forallb newsb (f_q s) && forallb (fun x => forallb newsb x.2) (map_to_list (f_up s)) && forallb (fun x => forallb newsb x.2) (map_to_list (f_down s)) &&
  bool_decide (0 ∉ f_bye s) && forallb (fun x => negb (bool_decide (ch_state x.2 = AShuttingDown))) (map_to_list (cm_children (f_cm s))).
Lemma newsb_good l : forallb newsb l = true -> Forall good_news l.
Proof. intros H. apply Forall_forall. intros m Hm. rewrite forallb_forall in H. apply elem_of_list_In, H in Hm. by destruct m as [| | |? []| | | | | | |]. Qed.
Lemma newsb_map (f : gmap N (list fmsg)) : forallb (fun x => forallb newsb x.2) (map_to_list f) = true -> forall c, Forall good_news (default [] (f !! c)).
Proof.
  intros H c. destruct (f !! c) as [l|] eqn:Hl; [|constructor]. apply newsb_good. rewrite forallb_forall in H. apply elem_of_map_to_list, elem_of_list_In in Hl. exact (H _ Hl).
Qed.
Lemma peacefulb_sound s : peacefulb s = true -> peaceful s.
Proof.
  unfold peacefulb. intros [[[[A B]%andb_true_iff C]%andb_true_iff D]%andb_true_iff E]%andb_true_iff. apply bool_decide_eq_true_1 in D.
  split; [by apply newsb_good|]. split; [by apply newsb_map|]. split; [by apply newsb_map|]. split; [done|]. intros c _ Hc. unfold state_of in Hc.
  destruct (cm_children (f_cm s) !! c) as [ch|] eqn:Hch; [|done]. cbn in Hc. injection Hc as Hc. rewrite forallb_forall in E. apply elem_of_map_to_list, elem_of_list_In in Hch.
  specialize (E _ Hch). cbn in E. by rewrite bool_decide_true in E.
Qed.
Definition rise : list fop := [FSpawn always; D; Df; D; D; FChild 2 true false; FCreate false false; FSpawn always].
Definition risen (s : fstate) (ev : list cevent) : bool :=
  bool_decide (cm_state (f_cm s) = AInitializing) && peacefulb s && bool_decide (EInitError ∉ ev) && bool_decide (ESelfShutdown ∉ ev) && has_initializing (f_cm s) &&
  bool_decide (f_q s = [MCreate 3; MSpawn 4]) && bool_decide (2 ∈ f_foreign s).
Lemma rise_run : match run fs (finit false) rise with Ok (s, ev) => risen s ev | _ => false end = true.
Proof. vm_compute. reflexivity. Qed.
Example C78_rise : guarded fs orderly (finit false) rise /\ exists s ev, run fs (finit false) rise = Ok (s, ev) /\
  cm_state (f_cm s) = AInitializing /\ peaceful s /\ ~ failed ev /\ has_initializing (f_cm s) = true /\ f_q s = [MCreate 3; MSpawn 4] /\ 2 ∈ f_foreign s.
Proof.
  split; [by_guard|]. pose proof rise_run as H. destruct (run fs (finit false) rise) as [[s ev]| |]; [|discriminate..]. exists s, ev. split; [reflexivity|].
  unfold risen in H. apply andb_true_iff in H as [[[[[[A B]%andb_true_iff C]%andb_true_iff E]%andb_true_iff F]%andb_true_iff G]%andb_true_iff K].
  apply bool_decide_eq_true_1 in A, C, E, G, K. split; [exact A|]. split; [by apply peacefulb_sound|]. split; [|by split_and!]. by intros [?|?].
Qed.
(** One way up, with a third actor made on the way. *)
Definition ascent : list fop := [D; D; D; FChildInit 2 false; FUp 2; D; D; FChildInit 3 false; D; D; FChildInit 5 false; D; FInitialized; D; FStarted].
Example C78_ascent : Forall smooth ascent /\ exists s ev, run fs (finit false) (rise ++ ascent) = Ok (s, ev) /\
  cm_state (f_cm s) = AOperational /\ EInitOk 2 ∈ ev /\ EInitOk 3 ∈ ev /\ EInitOk 5 ∈ ev /\ ESupStart ∈ ev /\ f_q s = [].
Proof. split; [by repeat constructor|]. by_outcome. Qed.
(** A supervisor with a parent which has not asked yet. *)
Definition outcomeb (hp : bool) (ops : list fop) (p : fstate -> list cevent -> bool) : bool :=
  match run (fstep hp PShutdownSelf true) (finit hp) ops with Ok (s, ev) => p s ev | _ => false end.
Example C78_parent : outcomeb true [FCreate false false; D; D] (fun s ev => peacefulb s && negb (cm_initreq (f_cm s)) && has_initializing (f_cm s)) = true /\
  outcomeb true [FCreate false false; D; D; FChildInit 1 false; D; FParentInit; FInitialized; FStarted]
    (fun s ev => bool_decide (cm_state (f_cm s) = AOperational) && bool_decide (EStart 1 ∈ ev)) = true.
Proof. split; vm_compute; reflexivity. Qed.
(** Without the second condition: a supervisor which has reported its failure has lost
    its init request, and will not become operational by such steps. *)
Example C78_failed_ex : exists s ev, run (fstep false PShutdownSelf false) (finit false) [FCreate false false; D; D; D; FChildInit 1 true; D; D] = Ok (s, ev) /\
  cm_state (f_cm s) = AInitializing /\ failed ev /\ cm_initreq (f_cm s) = false /\ MInitReq 0 ∉ f_q s.
Proof.
  assert (H : match run (fstep false PShutdownSelf false) (finit false) [FCreate false false; D; D; D; FChildInit 1 true; D; D] with
    Ok (s, ev) => bool_decide (cm_state (f_cm s) = AInitializing) && bool_decide (EInitError ∈ ev) && negb (cm_initreq (f_cm s)) && bool_decide (MInitReq 0 ∉ f_q s) | _ => false end = true) by (vm_compute; reflexivity).
  destruct (run _ _ _) as [[s ev]| |]; [|discriminate..]. exists s, ev. split; [reflexivity|]. apply andb_true_iff in H as [[[A B]%andb_true_iff C]%andb_true_iff E].
  apply bool_decide_eq_true_1 in A, B, E. apply negb_true_iff in C. split_and!; try assumption. by left.
Qed.

Print Assumptions C78_starts.
Print Assumptions C78_peace.
Print Assumptions C78_open.
Print Assumptions C78_request.
