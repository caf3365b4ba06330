(** C24-C28: the life cycle of an actor. *)
From stdpp Require Import base list gmap.
From Coq Require Import String.
From Verif Require Import Base ErrorsModel ErrorsProofs LifeModel LifeSpec LifeProofs LifeFacts.
Open Scope N_scope.

Notation runs n starter sp esc au id ops s ev := (run (lstep n starter sp esc au id) linit ops = Ok (s, ev)).
Notation disciplined n starter sp esc au id ops := (guarded (lstep n starter sp esc au id) life_ok linit ops).

(** C24: the assignments to the state form a walk along the legal steps. *)
Theorem C24_edges : forall n starter sp esc au id ops s ev, runs n starter sp esc au id ops s ev ->
  disciplined n starter sp esc au id ops -> LifeSpec.walk ANew ev (l_state s).
Proof. exact edges. Qed.
Theorem C24_monotone : forall n starter sp esc au id ops1 ops2 s1 s2 ev1 ev2, runs n starter sp esc au id ops1 s1 ev1 ->
  runs n starter sp esc au id (ops1 ++ ops2) s2 ev2 -> disciplined n starter sp esc au id (ops1 ++ ops2) ->
  rank (l_state s1) <= rank (l_state s2).
Proof. exact monotone. Qed.
Theorem C24_final : forall n starter sp esc au id ops1 ops2 s1 s2 ev1 ev2, runs n starter sp esc au id ops1 s1 ev1 ->
  runs n starter sp esc au id (ops1 ++ ops2) s2 ev2 -> disciplined n starter sp esc au id (ops1 ++ ops2) ->
  l_state s1 = AShutDown -> l_state s2 = AShutDown.
Proof. exact down_final. Qed.
Theorem C24_start_ignored : forall n starter sp esc au id s, l_state s <> AInitialized -> lstep n starter sp esc au id s OStartMsg = Ok (s, []).
Proof. exact start_ignored. Qed.

Definition life_okb (s : lstate) (o : lop) : bool :=
  match o with OShutMsg _ _ => rank (l_state s) <? 5 | OShutSelf _ => rank (l_state s) <? 6 | _ => true end.
Lemma life_okb_ok s o : life_okb s o = true -> life_ok s o.
Proof. destruct o; cbn; try done; intros H; by apply N.ltb_lt in H. Qed.

(** Three plugins, the starter is number 1; plugin 1 refuses once at first. *)
Definition boot : list lop :=
  [OReact KInit 0 true; OReact KInit 1 true; OReact KStart 1 true; OReact KShut 0 true; OReact KShut 2 true; OInitialize;
   OInitMsg 7; OVote true; OVote false; OContinue KInit; OVote true; OStartMsg; OVote true].
Definition down : list lop := [OShutMsg 8 None; OVote true; OVote false; OContinue KShut; OVote true].
Example C24_whole_life : exists s ev, runs 3 1 false false false "a" (boot ++ down) s ev /\ disciplined 3 1 false false false "a" (boot ++ down) /\
  List.filter (fun x => match x with EState _ _ => true | _ => false end) ev =
    [EState ANew AInitializing; EState AInitializing AInitialized; EState AInitialized AOperational; EState AOperational AShuttingDown; EState AShuttingDown AShutDown].
Proof.
  eexists _, _. split; [vm_compute; reflexivity|]. split; [|vm_compute; reflexivity].
  apply (guardedb_sound _ life_okb _ life_okb_ok). vm_compute. reflexivity.
Qed.
(** Without the discipline a second shutdown request would bring the actor back:
    the assertion of init_shutdown.cpp:55 is a tautology. *)
Example C24_second_request : exists s ev, runs 3 1 false false false "a" (boot ++ down ++ [OReact KShut 0 true; OShutMsg 9 None]) s ev /\ l_state s = AShuttingDown.
Proof. eexists _, _. split; vm_compute; reflexivity. Qed.

(** C25 *)
Theorem C25_once : forall n starter sp esc au id ops s ev, runs n starter sp esc au id ops s ev -> (cnt is_initok ev <= 1)%nat.
Proof. exact init_once. Qed.
(** There are not more answers, positive or negative, than requests. *)
Theorem C25_answers : forall n starter sp esc au id ops s ev, runs n starter sp esc au id ops s ev -> (cnt is_initans ev <= cnt is_initmsg ev)%nat.
Proof. exact init_counts. Qed.
Example C25_answered_once : exists s ev, runs 3 1 false false false "a" (take 9 boot ++ [OInitFail; OInitFail]) s ev /\ cnt is_initans ev = 1%nat.
Proof. eexists _, _. split; vm_compute; reflexivity. Qed.
(** A plugin is asked only when it wants to be, after all earlier ones agreed (or
    did not want to be asked) in the same loop, in which nobody has refused. *)
Theorem C25_order : forall n starter sp esc au id ops s ev ev1 f p ev2, runs n starter sp esc au id ops s ev ->
  ev = ev1 ++ EAsk KInit f p :: ev2 ->
  wants KInit p ev1 = true /\ (p < n)%nat /\ (forall q, (q < p)%nat -> passed KInit f q ev1) /\ (forall q, EVote KInit f q false ∉ ev1).
Proof. exact (fun n starter sp esc au id ops s ev ev1 f p ev2 => ask_ok n starter sp esc au id ops s ev ev1 KInit f p ev2). Qed.
(** A plugin is passed without being asked only if its reaction is off. *)
Theorem C25_skip : forall n starter sp esc au id ops s ev ev1 f p ev2, runs n starter sp esc au id ops s ev ->
  ev = ev1 ++ ESkip KInit f p :: ev2 -> wants KInit p ev1 = false.
Proof. exact (fun n starter sp esc au id ops s ev ev1 f p ev2 => skip_ok n starter sp esc au id ops s ev ev1 KInit f p ev2). Qed.
(** The confirmation answers a received request, after a loop in which all agreed. *)
Theorem C25_all : forall n starter sp esc au id ops s ev ev1 f r ev2, runs n starter sp esc au id ops s ev ->
  ev = ev1 ++ EInitOk f r :: ev2 ->
  EInitMsg r ∈ ev1 /\ (forall q, (q < n)%nat -> passed KInit f q ev1) /\ (forall q, EVote KInit f q false ∉ ev1).
Proof. exact init_all. Qed.
(** INITIALIZED is reached by a confirmation only. *)
Theorem C25_state : forall n starter sp esc au id ops s ev ev1 o ev2, runs n starter sp esc au id ops s ev ->
  ev = ev1 ++ EState o AInitialized :: ev2 -> exists ev' f r, ev1 = ev' ++ [EInitOk f r].
Proof. exact initialized_confirmed. Qed.
(** The confirmation comes when all agree. *)
Theorem C25_completes : forall n starter sp esc au id s r, l_state s = AInitializing -> l_ireq s = Some r ->
  exists m s' e f, run (lstep n starter sp esc au id) s (OContinue KInit :: replicate m (OVote true)) = Ok (s', e) /\
    l_state s' = AInitialized /\ EInitOk f r ∈ e.
Proof. exact init_completes. Qed.
Example C25_confirmed : exists s ev ev2, runs 3 1 false false false "a" boot s ev /\
  ev = [EReact KInit 0 true; EReact KInit 1 true; EReact KStart 1 true; EReact KShut 0 true; EReact KShut 2 true; EState ANew AInitializing;
        EInitMsg 7; ELoop KInit 0; EAsk KInit 0 0; EVote KInit 0 0 true; EReact KInit 0 false; EAsk KInit 0 1; EVote KInit 0 1 false;
        ELoop KInit 1; ESkip KInit 1 0; EAsk KInit 1 1; EVote KInit 1 1 true; EReact KInit 1 false; ESkip KInit 1 2; EFinish KInit 1]
       ++ EInitOk 1 7 :: ev2.
Proof. eexists _, _, _. split; vm_compute; reflexivity. Qed.
(** A plugin which asks for a vote after its turn is not asked: resources
    acquired in the configuration phase of the starter do not delay the
    initialization. *)
Example C25_too_late : exists s ev, runs 2 1 false false false "a"
  [OReact KInit 0 true; OReact KInit 1 true; OInitialize; OInitMsg 7; OVote true; OReact KInit 0 true; OVote true] s ev /\
  l_state s = AInitialized /\ wants KInit 0 ev = true.
Proof. eexists _, _. split; [vm_compute; reflexivity|]. split; vm_compute; reflexivity. Qed.

(** C26 *)
Theorem C26_once : forall n starter sp esc au id ops s ev, runs n starter sp esc au id ops s ev ->
  disciplined n starter sp esc au id ops -> (cnt is_shutok ev <= 1)%nat.
Proof. exact shut_once. Qed.
(** In any case there are not more answers than requests. *)
Theorem C26_answers : forall n starter sp esc au id ops s ev, runs n starter sp esc au id ops s ev -> (cnt is_shutok ev <= cnt is_shutmsg ev)%nat.
Proof. exact shut_counts. Qed.
Theorem C26_order : forall n starter sp esc au id ops s ev ev1 f p ev2, runs n starter sp esc au id ops s ev ->
  ev = ev1 ++ EAsk KShut f p :: ev2 ->
  wants KShut p ev1 = true /\ (p < n)%nat /\ (forall q, (p < q < n)%nat -> passed KShut f q ev1) /\ (forall q, EVote KShut f q false ∉ ev1).
Proof. exact (fun n starter sp esc au id ops s ev ev1 f p ev2 => ask_ok n starter sp esc au id ops s ev ev1 KShut f p ev2). Qed.
Theorem C26_skip : forall n starter sp esc au id ops s ev ev1 f p ev2, runs n starter sp esc au id ops s ev ->
  ev = ev1 ++ ESkip KShut f p :: ev2 -> wants KShut p ev1 = false.
Proof. exact (fun n starter sp esc au id ops s ev ev1 f p ev2 => skip_ok n starter sp esc au id ops s ev ev1 KShut f p ev2). Qed.
Theorem C26_all : forall n starter sp esc au id ops s ev ev1 f r ev2, runs n starter sp esc au id ops s ev ->
  ev = ev1 ++ EShutOk f r :: ev2 ->
  EShutMsg r ∈ ev1 /\ (forall q, (q < n)%nat -> passed KShut f q ev1) /\ (forall q, EVote KShut f q false ∉ ev1).
Proof. exact shut_all. Qed.
Theorem C26_state : forall n starter sp esc au id ops s ev ev1 o ev2, runs n starter sp esc au id ops s ev ->
  ev = ev1 ++ EState o AShutDown :: ev2 ->
  exists f, (forall q, (q < n)%nat -> passed KShut f q ev1) /\ (forall q, EVote KShut f q false ∉ ev1).
Proof. exact down_all. Qed.
Theorem C26_completes : forall n starter sp esc au id s, l_state s = AShuttingDown -> l_deact s = ∅ ->
  exists m s' e f, run (lstep n starter sp esc au id) s (OContinue KShut :: replicate m (OVote true)) = Ok (s', e) /\
    l_state s' = AShutDown /\ (forall r, l_sreq s = Some r -> EShutOk f r ∈ e).
Proof. exact shut_completes. Qed.
Example C26_confirmed : exists s ev, runs 3 1 false false false "a" (boot ++ down) s ev /\
  drop 32 ev = [ELoop KShut 3; EAsk KShut 3 2; EVote KShut 3 2 true; EReact KShut 2 false; ESkip KShut 3 1; EAsk KShut 3 0; EVote KShut 3 0 false;
               ELoop KShut 4; ESkip KShut 4 2; ESkip KShut 4 1; EAsk KShut 4 0; EVote KShut 4 0 true; EReact KShut 0 false; EFinish KShut 4;
               EShutOk 4 8; EState AShuttingDown AShutDown].
Proof.
  eexists _, _. split; vm_compute; reflexivity.
Qed.
(** Nested loops: a plugin calls shutdown_continue inside handle_shutdown; the
    request is answered once. *)
Example C26_nested : exists s ev, runs 2 0 false false false "a"
  [OInitialize; OReact KShut 1 true; OReact KShut 0 true; OShutMsg 8 None; OReact KShut 1 false; OContinue KShut; OVote true; OVote true] s ev /\
  l_state s = AShutDown /\ cnt is_shutok ev = 1%nat.
Proof. eexists _, _. split; [vm_compute; reflexivity|]. split; vm_compute; reflexivity. Qed.

(** C27 *)
Theorem C27_first : forall n starter sp esc au id ops1 ops2 s1 s2 ev1 ev2 r, runs n starter sp esc au id ops1 s1 ev1 ->
  runs n starter sp esc au id (ops1 ++ ops2) s2 ev2 -> l_reason s1 = Some r -> l_reason s2 = Some r.
Proof. exact reason_first. Qed.
Theorem C27_taken : forall n starter sp esc au id s rq reason s' e,
  lstep n starter sp esc au id s (OShutMsg rq (Some reason)) = Ok (s', e) -> idle s = true -> l_reason s = None -> l_reason s' = Some reason.
Proof. exact reason_taken. Qed.
(** The reason a supervisor sends to its children (child_manager.cpp:402-404)
    keeps the root of its own, through any number of levels. *)
Definition forwarded (idents : list string) (r : err) : err :=
  foldl (fun e id => make_error id (mk_shutdown supervisor_shutdown) (Some e) None) r idents.
Lemma forwarded_root : forall idents r, root (forwarded idents r) = root r.
Proof. induction idents as [|i l IH]; intros r; [done|]. cbn. unfold forwarded in IH. rewrite IH. apply root_wrap. Qed.
Theorem C27_root : forall idents r, root (forwarded idents r) = root r.
Proof. exact forwarded_root. Qed.
Definition r1 := make_error "c" (mk_error request_timeout) None None.
Definition r2 := make_error "d" (mk_shutdown unlink_requested) None None.
Example C27_second_ignored : exists s ev, runs 3 1 false false false "a" (boot ++ [OShutMsg 8 (Some (forwarded ["s"; "t"]%string r1)); OVote false; OShutMsg 9 (Some r2)]) s ev /\
  l_reason s = Some (forwarded ["s"; "t"]%string r1) /\ root (forwarded ["s"; "t"]%string r1) = r1.
Proof. eexists _, _. split; [vm_compute; reflexivity|]. split; vm_compute; reflexivity. Qed.

(** C28: when the shutdown begins with the reason [final_reason s reason] ... *)
Theorem C28_escalate : forall n starter sp esc au id s o s' e reason y, lstep n starter sp esc au id s o = Ok (s', e) -> begins s o = Some reason ->
  EEscalate y ∈ e <->
  (sp = false /\ esc = true /\ exists r, final_reason s reason = Some r /\ ec_true (e_ec (root r)) = true /\
    y = make_error id (mk_error failure_escalation) (Some r) None).
Proof. exact escalate_iff. Qed.
Theorem C28_autoshutdown : forall n starter sp esc au id s o s' e reason y, lstep n starter sp esc au id s o = Ok (s', e) -> begins s o = Some reason ->
  EAutoDown y ∈ e <-> (sp = false /\ au = true /\ y = make_error id (mk_shutdown child_down) (final_reason s reason) None).
Proof. exact auto_iff. Qed.
(** ... and at no other time. *)
Theorem C28_only : forall n starter sp esc au id s o s' e, lstep n starter sp esc au id s o = Ok (s', e) -> begins s o = None ->
  forall y, EEscalate y ∉ e /\ EAutoDown y ∉ e.
Proof. exact begins_none. Qed.
Example C28_escalates : exists s ev, runs 3 1 false true false "a" (boot ++ [OShutMsg 8 (Some (forwarded ["s"]%string r1))]) s ev /\
  ev !! 33%nat = Some (EEscalate (make_error "a" (mk_error failure_escalation) (Some (forwarded ["s"]%string r1)) None)).
Proof.
  eexists _, _. split; vm_compute; reflexivity.
Qed.
(** A normal shutdown is not escalated. *)
Example C28_normal : exists s ev, runs 3 1 false true false "a" (boot ++ [OShutMsg 8 (Some (make_error "c" (mk_shutdown normal) None None))]) s ev /\
  Forall (fun x => match x with EEscalate _ | EAutoDown _ => False | _ => True end) ev /\ l_state s = AShuttingDown.
Proof. eexists _, _. split; [vm_compute; reflexivity|]. split; [|vm_compute; reflexivity]. repeat constructor. Qed.

Print Assumptions C24_edges.
Print Assumptions C24_monotone.
Print Assumptions C24_final.
Print Assumptions C24_start_ignored.
Print Assumptions C25_once.
Print Assumptions C25_answers.
Print Assumptions C25_order.
Print Assumptions C25_skip.
Print Assumptions C25_all.
Print Assumptions C25_state.
Print Assumptions C25_completes.
Print Assumptions C26_once.
Print Assumptions C26_answers.
Print Assumptions C26_order.
Print Assumptions C26_skip.
Print Assumptions C26_all.
Print Assumptions C26_state.
Print Assumptions C26_completes.
Print Assumptions C27_first.
Print Assumptions C27_taken.
Print Assumptions C27_root.
Print Assumptions C28_escalate.
Print Assumptions C28_autoshutdown.
Print Assumptions C28_only.
