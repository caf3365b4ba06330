(** C79: a tree of supervisors which initializes can become operational when nobody ends. *)
From stdpp Require Import base list gmap.
From Verif Require Import Base ChildMgrModel FamilyModel FamilySpec FamilyStartSpec FamilyUpSpec TreeModel TreeSpec TreeStartSpec TreeUpSpec TreeUpProofs.
From Verif Require TreeProps FamilyUpProps.
Open Scope N_scope.

(** Whatever happened before: if the root initializes, and at no supervisor of the tree
    anybody ends or has failed, then messages which are taken, factories which make their
    actors and actors and supervisors which answer suffice to make the root operational.
    Neither users nor timers are needed. *)
Theorem C79_starts : forall pol sync ops t ev rd, guarded (tstep pol sync) tidy tinit ops -> run (tstep pol sync) tinit ops = Ok (t, ev) -> tpeaceful t ->
  t !! [] = Some rd -> sup_state rd = AInitializing ->
  exists ops' t' e rd', Forall tsmooth ops' /\ guarded (tstep pol sync) tidy t ops' /\ run (tstep pol sync) t ops' = Ok (t', e) /\
    t' !! [] = Some rd' /\ sup_state rd' = AOperational /\ ESupStart ∈ n_ev rd' /\ tpeaceful t'.
Proof. exact tree_up. Qed.

(** The same for a supervisor further down which holds its init request: it becomes
    initialized, and nothing is left under way in the tree. *)
Theorem C79_ready : forall pol sync ops t ev r rd, guarded (tstep pol sync) tidy tinit ops -> run (tstep pol sync) tinit ops = Ok (t, ev) -> tpeaceful t -> starting t r rd ->
  exists ops' t' e rd', Forall tsmooth ops' /\ guarded (tstep pol sync) tidy t ops' /\ run (tstep pol sync) t ops' = Ok (t', e) /\
    t' !! r = Some rd' /\ sup_state rd' = AInitialized /\ tpeaceful t' /\ still t'.
Proof. exact tree_initializes. Qed.

(** Such steps, in any order, neither end nor fail anybody. *)
Theorem C79_peace : forall pol sync ops t ev ops' t' e, guarded (tstep pol sync) tidy tinit ops -> run (tstep pol sync) tinit ops = Ok (t, ev) -> tpeaceful t ->
  Forall tsmooth ops' -> run (tstep pol sync) t ops' = Ok (t', e) -> tpeaceful t' /\ guarded (tstep pol sync) tidy tinit (ops ++ ops').
Proof. exact tree_smooth. Qed.

(** So whichever of them were made, the start can still be completed. *)
Theorem C79_open : forall pol sync ops t ev ops' t' e rd, guarded (tstep pol sync) tidy tinit ops -> run (tstep pol sync) tinit ops = Ok (t, ev) -> tpeaceful t ->
  Forall tsmooth ops' -> run (tstep pol sync) t ops' = Ok (t', e) -> t' !! [] = Some rd -> sup_state rd = AInitializing ->
  exists ops2 t2 e2 rd2, Forall tsmooth ops2 /\ guarded (tstep pol sync) tidy t' ops2 /\ run (tstep pol sync) t' ops2 = Ok (t2, e2) /\
    t2 !! [] = Some rd2 /\ sup_state rd2 = AOperational /\ ESupStart ∈ n_ev rd2 /\ tpeaceful t2.
Proof. exact tree_open. Qed.

(** The tree of TreeProps.v, three supervisors one below the other, before anybody has
    answered, and with a spawner at the lowest which has not tried yet. *)
Notation ts := TreeProps.ts.
Definition failedb (ev : list cevent) : bool := bool_decide (EInitError ∈ ev) || bool_decide (ESelfShutdown ∈ ev).
Definition tpeacefulb (t : tstate) : bool := forallb (fun x => FamilyUpProps.peacefulb (n_fam x.2) && negb (failedb (n_ev x.2))) (map_to_list t).
Lemma tpeacefulb_sound t : tpeacefulb t = true -> tpeaceful t.
Proof.
  intros H n nd Hn. unfold tpeacefulb in H. rewrite forallb_forall in H. apply elem_of_map_to_list, elem_of_list_In, H in Hn. cbn in Hn. apply andb_true_iff in Hn as [A B].
  split; [by apply FamilyUpProps.peacefulb_sound|]. unfold failedb in B. apply negb_true_iff, orb_false_elim in B as [B1 B2]. apply bool_decide_eq_false_1 in B1, B2. by intros [?|?].
Qed.
Definition dawn : list top := TreeProps.begin ++ [TOp [1; 1] (FSpawn (SCfg RAlways 0 0 false))].
Definition is_up (st : astate) (t : tstate) (n : list N) : bool := match t !! n with Some nd => bool_decide (sup_state nd = st) | None => false end.
Lemma dawn_run : match run ts tinit dawn with Ok (t, _) => tpeacefulb t && is_up AInitializing t [] && is_up AInitializing t [1] && is_up AInitializing t [1; 1] | _ => false end = true.
Proof. vm_compute. reflexivity. Qed.
Example C79_dawn : guarded ts tidy tinit dawn /\ exists t ev rd, run ts tinit dawn = Ok (t, ev) /\ tpeaceful t /\ t !! [] = Some rd /\ sup_state rd = AInitializing /\
  is_up AInitializing t [1] = true /\ is_up AInitializing t [1; 1] = true.
Proof.
  split; [TreeProps.by_guard|]. pose proof dawn_run as H. destruct (run ts tinit dawn) as [[t ev]| |]; [|discriminate..]. exists t, ev.
  apply andb_true_iff in H as [[[A B]%andb_true_iff C]%andb_true_iff E]. unfold is_up in B. destruct (t !! []) as [rd|]; [|discriminate]. apply bool_decide_eq_true_1 in B. exists rd.
  split; [reflexivity|]. split; [by apply tpeacefulb_sound|]. by split_and!.
Qed.
(** One way up. *)
Notation D := TreeProps.D.
Definition day : list top := [D [1; 1]; D [1; 1]; D [1; 1]; TOp [1; 1] (FChildInit 1 false); D [1; 1]; TOp [1; 1] (FChildInit 3 false); D [1; 1]; TInited [1] 1; D [1]; TInited [] 1; D [];
  TOp [] FInitialized; D []; TOp [] FStarted; TStarted [] 1; TStarted [1] 1].
Example C79_day : Forall tsmooth day /\ match run ts tinit (dawn ++ day) with Ok (t, _) => tpeacefulb t && is_up AOperational t [] && is_up AOperational t [1] && is_up AOperational t [1; 1] | _ => false end = true.
Proof. split; [by repeat constructor|vm_compute; reflexivity]. Qed.
(** A supervisor does not answer before its children have. *)
Example C79_order : match run ts tinit (dawn ++ [TInited [1] 1; TInited [] 1; TOp [] FInitialized]) with Ok (t, _) => is_up AInitializing t [] && is_up AInitializing t [1] && is_up AInitializing t [1; 1] | _ => false end = true.
Proof. vm_compute. reflexivity. Qed.

Print Assumptions C79_starts.
Print Assumptions C79_ready.
Print Assumptions C79_peace.
Print Assumptions C79_open.
