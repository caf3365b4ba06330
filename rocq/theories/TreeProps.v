(** C56: a tree of supervisors. *)
From stdpp Require Import base list gmap.
From Verif Require Import Base StateModel ChildMgrModel ChildMgrSpec FamilyModel FamilySpec TreeModel TreeSpec TreeProofs TreeFacts.
Open Scope N_scope.

(** No supervisor of the tree violates an assertion of its child manager. *)
Theorem C56_safe : forall pol sync ops, guarded (tstep pol sync) tidy tinit ops -> exists t ev, run (tstep pol sync) tinit ops = Ok (t, ev).
Proof. exact tree_safe. Qed.

(** What a supervisor believes about a child which is a supervisor is true. *)
Theorem C56_mirror : forall pol sync ops t ev c n m, guarded (tstep pol sync) tidy tinit ops -> run (tstep pol sync) tinit ops = Ok (t, ev) ->
  t !! (c :: n) = Some m -> exists nd, t !! n = Some nd /\ ECreated c ∈ n_ev nd /\ state_of (n_fam nd) c = Some (sup_state m).
Proof. intros pol sync ops t ev c n m Hg H. exact (tree_mirror pol sync ops t ev c n m (conj Hg H)). Qed.

(** When a supervisor agrees to shut down, everything below it has shut down: all the
    actors of all supervisors below, and these supervisors. *)
Theorem C56_order : forall pol sync ops t ev n nd l m, guarded (tstep pol sync) tidy tinit ops -> run (tstep pol sync) tinit ops = Ok (t, ev) ->
  t !! n = Some nd -> EVoteShutdown true ∈ n_ev nd -> t !! (l ++ n) = Some m ->
  (forall c, ECreated c ∈ n_ev m -> state_of (n_fam m) c = Some AShutDown) /\ (l <> [] -> sup_state m = AShutDown).
Proof. intros pol sync ops t ev n nd l m Hg H. exact (tree_order pol sync ops t ev n nd l m (conj Hg H)). Qed.
Theorem C56_subtree : forall pol sync ops t ev n nd l m, guarded (tstep pol sync) tidy tinit ops -> run (tstep pol sync) tinit ops = Ok (t, ev) ->
  t !! n = Some nd -> n <> [] -> sup_state nd = AShutDown -> t !! (l ++ n) = Some m ->
  sup_state m = AShutDown /\ forall c, ECreated c ∈ n_ev m -> state_of (n_fam m) c = Some AShutDown.
Proof. intros pol sync ops t ev n nd l m Hg H. exact (tree_subtree pol sync ops t ev n nd l m (conj Hg H)). Qed.

(** A child supervisor shuts down exactly if its parent has asked for it ... *)
Theorem C56_asked : forall pol sync ops t ev c n nd m, guarded (tstep pol sync) tidy tinit ops -> run (tstep pol sync) tinit ops = Ok (t, ev) ->
  t !! n = Some nd -> t !! (c :: n) = Some m -> settled (n_fam nd) ->
  EShutReq c ∈ n_ev nd <-> (sup_state m = AShuttingDown \/ sup_state m = AShutDown).
Proof. intros pol sync ops t ev c n nd m Hg H. exact (tree_asked pol sync ops t ev c n nd m (conj Hg H)). Qed.
(** ... a supervisor which decides to end, for the failure of a child, is asked to by
    its parent ... *)
Theorem C56_escalates : forall pol sync ops t ev c n nd m, guarded (tstep pol sync) tidy tinit ops -> run (tstep pol sync) tinit ops = Ok (t, ev) ->
  t !! n = Some nd -> t !! (c :: n) = Some m -> settled (n_fam nd) -> settled (n_fam m) -> ESelfShutdown ∈ n_ev m \/ EEscalate ∈ n_ev m ->
  EShutReq c ∈ n_ev nd /\ (sup_state m = AShuttingDown \/ sup_state m = AShutDown).
Proof. intros pol sync ops t ev c n nd m Hg H. exact (tree_escalates pol sync ops t ev c n nd m (conj Hg H)). Qed.
(** ... and a supervisor which shuts down makes its children end, supervisors or not. *)
Theorem C56_down : forall pol sync ops t ev n nd ev1 b ev2 c, guarded (tstep pol sync) tidy tinit ops -> run (tstep pol sync) tinit ops = Ok (t, ev) ->
  t !! n = Some nd -> settled (n_fam nd) -> n_ev nd = ev1 ++ EVoteShutdown b :: ev2 -> ECreated c ∈ ev1 ->
  shutting (n_fam nd) c /\ forall m, t !! (c :: n) = Some m -> sup_state m = AShuttingDown \/ sup_state m = AShutDown.
Proof. intros pol sync ops t ev n nd ev1 b ev2 c Hg H. exact (tree_down pol sync ops t ev n nd ev1 b ev2 c (conj Hg H)). Qed.

(** A supervisor becomes initialized only if every child which it has created is
    initialized, or past that. *)
Theorem C56_init : forall pol sync ops t ev o t' e x m m' c, guarded (tstep pol sync) tidy tinit ops -> run (tstep pol sync) tinit ops = Ok (t, ev) ->
  tstep pol sync t o = Ok (t', e) -> t !! x = Some m -> t' !! x = Some m' -> sup_state m <> AInitialized -> sup_state m' = AInitialized -> ECreated c ∈ n_ev m ->
  (exists st, state_of (n_fam m) c = Some st /\ 3 <= rank st) /\ forall k, t !! (c :: x) = Some k -> 3 <= rank (sup_state k).
Proof. intros pol sync ops t ev o t' e x m m' c Hg H. exact (tree_init pol sync ops t ev o t' e x m m' c (conj Hg H)). Qed.

(** ** A tree of three supervisors, [], [1] and [1; 1], with one actor at the bottom *)
Definition ts := tstep (fun _ => PShutdownFailed) (fun _ => false).
Definition D n := TOp n (FDeliver true false false false false true false).
Definition new n : list top := [TOp n (FCreate false false); TAttach n 1; D n; D n].
Definition begin : list top := [D []] ++ new [] ++ new [1] ++ [TOp [1; 1] (FCreate false false); D [1; 1]; D [1; 1]].
Definition up3 : list top := begin ++ [TOp [1; 1] (FChildInit 1 false); D [1; 1]; TInited [1] 1; D [1]; TInited [] 1; D []; TOp [] FInitialized; D []; TOp [] FStarted; TStarted [] 1; TStarted [1] 1].
Definition leave n : list top := [TOp n FVote; TOp n (FDeactivate true false); D n].
Definition ending : list top := [TOp [] (FShutdown 0); D []; D []; D []; TOp [1] FVote; D [1]; D [1]; TOp [1; 1] FVote; D [1; 1]; D [1; 1]; TOp [1; 1] (FChildDone 1); D [1; 1]].
Definition down3 : list top := up3 ++ ending ++ leave [1; 1] ++ [TDone [1] 1; D [1]] ++ leave [1] ++ [TDone [] 1; D []; TOp [] FVote].

Ltac by_guard := apply (guardedb_sound _ (fun t o => bool_decide (tidy t o)) tidy (fun t o => bool_decide_eq_true_1 _)); vm_compute; reflexivity.
Lemma outcome ops (P : tstate -> Prop) (Hd : forall t, Decision (P t)) :
  match run ts tinit ops with Ok (t, _) => bool_decide (P t) | _ => false end = true -> exists t ev, run ts tinit ops = Ok (t, ev) /\ P t.
Proof. destruct (run ts tinit ops) as [[t ev]| |]; try done. intros H. exists t, ev. split; [done|]. by apply bool_decide_eq_true_1 in H. Qed.
Ltac by_outcome := match goal with |- ex (fun t => ex (fun ev => _ /\ @?P t)) => apply (outcome _ P _); vm_compute; reflexivity end.
Definition at_node (t : tstate) (n : list N) (P : node -> Prop) : Prop := match t !! n with Some nd => P nd | None => False end.
Global Instance at_node_dec t n P : (forall nd, Decision (P nd)) -> Decision (at_node t n P).
Proof. intros H. unfold at_node. destruct (t !! n); [apply H|apply _]. Defined.

Example C56_up : guarded ts tidy tinit up3 /\ exists t ev, run ts tinit up3 = Ok (t, ev) /\
  at_node t [] (fun nd => sup_state nd = AOperational) /\ at_node t [1] (fun nd => sup_state nd = AOperational) /\ at_node t [1; 1] (fun nd => sup_state nd = AOperational).
Proof. split; [by_guard|]. by_outcome. Qed.
(** The root waits for the actor at the bottom. *)
Example C56_waits : guarded ts tidy tinit begin /\ exists t ev, run ts tinit begin = Ok (t, ev) /\
  match ts t (TOp [] FInitialized), ts t (TInited [] 1), ts t (TInited [1] 1) with
  | Ok (t1, _), Ok (t2, _), Ok (t3, _) => at_node t1 [] (fun nd => sup_state nd = AInitializing) /\ at_node t2 [1] (fun nd => sup_state nd = AInitializing) /\ at_node t3 [1; 1] (fun nd => sup_state nd = AInitializing)
  | _, _, _ => False
  end.
Proof.
  split; [by_guard|]. match goal with |- ex (fun t => ex (fun ev => _ /\ @?P t)) => apply (outcome _ P (fun t => ltac:(simpl; repeat case_match; apply _))) end. vm_compute. reflexivity.
Qed.
Example C56_down_ex : guarded ts tidy tinit down3 /\ exists t ev, run ts tinit down3 = Ok (t, ev) /\
  at_node t [] (fun nd => sup_state nd = AShuttingDown /\ EVoteShutdown true ∈ n_ev nd) /\
  at_node t [1] (fun nd => sup_state nd = AShutDown) /\ at_node t [1; 1] (fun nd => sup_state nd = AShutDown).
Proof. split; [by_guard|]. by_outcome. Qed.
(** A spawned actor of [1; 1] fails, and this ends its supervisor. *)
Definition fatal : list top := up3 ++ [TOp [1; 1] (FSpawn (SCfg RNormalOnly 0 0 true)); D [1; 1]; D [1; 1]; D [1; 1]; TOp [1; 1] (FChildInit 3 true); D [1; 1]; D [1; 1]; D [1; 1]; D [1; 1];
  TOp [1; 1] (FChildDone 3); D [1; 1]; D [1; 1]; D [1; 1]; D [1]; D [1]; D [1]].
Example C56_fatal : guarded ts tidy tinit fatal /\ exists t ev, run ts tinit fatal = Ok (t, ev) /\
  at_node t [1; 1] (fun nd => sup_state nd = AShuttingDown /\ EEscalate ∈ n_ev nd /\ ESelfShutdown ∈ n_ev nd /\ f_q (n_fam nd) = []) /\
  at_node t [1] (fun nd => sup_state nd = AOperational /\ EShutReq 1 ∈ n_ev nd /\ f_q (n_fam nd) = []).
Proof. split; [by_guard|]. by_outcome. Qed.

(** Children must not be created after the agreement: such a child is still alive
    when its supervisor has shut down. *)
Theorem C56_late_refuted : exists ops t ev, run ts tinit ops = Ok (t, ev) /\
  guarded ts (fun t o => match o with TOp n o => match t !! n with Some nd => orderly (n_fam nd) o | None => True end | _ => True end) tinit ops /\
  at_node t [1] (fun nd => sup_state nd = AShutDown /\ ECreated 2 ∈ n_ev nd /\ state_of (n_fam nd) 2 = Some AInitializing).
Proof.
  exists (up3 ++ ending ++ leave [1; 1] ++ [TDone [1] 1; D [1]; TOp [1] FVote; TOp [1] (FCreate false false); TOp [1] (FDeactivate true false); D [1]; D [1]; D []; TDone [] 1]).
  assert (exists t ev, run ts tinit (up3 ++ ending ++ leave [1; 1] ++ [TDone [1] 1; D [1]; TOp [1] FVote; TOp [1] (FCreate false false); TOp [1] (FDeactivate true false); D [1]; D [1]; D []; TDone [] 1]) = Ok (t, ev) /\
    at_node t [1] (fun nd => sup_state nd = AShutDown /\ ECreated 2 ∈ n_ev nd /\ state_of (n_fam nd) 2 = Some AInitializing)) as (t & ev & H & H1).
  { by_outcome. }
  exists t, ev. split; [exact H|]. split; [|exact H1].
  apply (guardedb_sound _ (fun (t : tstate) o => match o with TOp n o => match t !! n with Some nd => bool_decide (orderly (n_fam nd) o) | None => true end | _ => true end)); [|vm_compute; reflexivity].
  intros t1 o. destruct o as [n o| | | |]; [|intros _; exact I..]. cbn. destruct (t1 !! n); [apply bool_decide_eq_true_1|intros _; exact I].
Qed.

Print Assumptions C56_safe.
Print Assumptions C56_mirror.
Print Assumptions C56_order.
Print Assumptions C56_subtree.
Print Assumptions C56_asked.
Print Assumptions C56_escalates.
Print Assumptions C56_down.
Print Assumptions C56_init.
Print Assumptions C56_late_refuted.
