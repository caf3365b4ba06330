(** C83: the start trigger of an actor comes once, and in time if the actor was there in time. *)
From stdpp Require Import base list gmap.
From Verif Require Import Base ChildMgrModel FamilyModel FamilySpec TreeModel TreeSpec TreeAllSpec TriggerSpec TriggerProofs TriggerOnce TriggerFamily.
From Verif Require FamilyProps TreeProps TreeUpProps TreeTopProps TreeAllProps.
Open Scope N_scope.

(** Nobody is told to start twice: with synchronized start only by the start of the supervisor,
    without it only upon its own good answer. *)
Theorem C83_once : forall hp policy sync c ops s ev, c <> 0 -> run (cstep hp policy sync) (cinit hp) ops = Ok (s, ev) ->
  (starts c ev <= 1)%nat /\ (EStart c ∈ ev -> if sync then past (cm_state s) else EInitOk c ∈ ev).
Proof. intros hp policy sync c ops s ev. exact (trig_once hp policy sync c ops s ev). Qed.

(** The same for a supervisor with its children, messages and timers. An init request which has timed
    out can still be answered there. *)
Theorem C83_family : forall hp policy sync c ops s ev, c <> 0 -> guarded (fstep hp policy sync) orderly (finit hp) ops -> run (fstep hp policy sync) (finit hp) ops = Ok (s, ev) ->
  (starts c ev <= 1)%nat /\ (EStart c ∈ ev -> if sync then past (cm_state (f_cm s)) else EInitOk c ∈ ev).
Proof. exact fam_trig. Qed.

(** And at every supervisor of a tree. *)
Theorem C83_tree : forall pol sync ops t ev n nd c, guarded (tstep pol sync) tidy tinit ops -> run (tstep pol sync) tinit ops = Ok (t, ev) -> t !! n = Some nd -> c <> 0 ->
  (starts c (n_ev nd) <= 1)%nat /\ (EStart c ∈ n_ev nd -> if sync n then past (sup_state nd) else answered (n_fam nd) c).
Proof. exact tree_trig. Qed.

(** Without synchronized start the trigger is sent to actors which have answered: none is ignored
    because it comes too early. *)
Theorem C83_free : forall hp policy sync ops s ev c, sync = false -> c <> 0 -> guarded (fstep hp policy sync) orderly (finit hp) ops -> run (fstep hp policy sync) (finit hp) ops = Ok (s, ev) ->
  EStart c ∈ ev -> answered s c.
Proof. exact trig_free. Qed.

(** With synchronized start the same holds for actors which were created before the supervisor
    was initialized. For the others it does not: C82_told_early_refuted. *)
Theorem C83_sync : forall hp policy sync ops1 s1 ev1 ops2 s ev2 c, sync = true -> c <> 0 ->
  guarded (fstep hp policy sync) orderly (finit hp) ops1 -> run (fstep hp policy sync) (finit hp) ops1 = Ok (s1, ev1) -> cm_state (f_cm s1) = AInitializing -> ECreated c ∈ ev1 ->
  guarded (fstep hp policy sync) polite s1 ops2 -> run (fstep hp policy sync) s1 ops2 = Ok (s, ev2) -> 0 ∉ f_bye s -> EStart c ∈ ev1 ++ ev2 -> answered s c.
Proof. exact trig_sync. Qed.

(** ** Runs *)
Notation D := FamilyProps.D.
Notation fs := (fstep false PShutdownSelf).
Definition first : list fop := [D; FCreate false false; D; D].
Definition rest : list fop := [FChildInit 1 false; D; FInitialized; D; FStarted].
Definition politeb (s : fstate) (o : fop) : bool := bool_decide (orderly s o) && match o with FInitialized => handle_init (f_cm s) | _ => true end.
Lemma politeb_sound s o : politeb s o = true -> polite s o.
Proof. intros [A B]%andb_true_iff. apply bool_decide_eq_true_1 in A. split; [exact A|]. by intros ->. Qed.
Example C83_run : guarded (fs true) orderly (finit false) first /\
  exists s1 ev1, run (fs true) (finit false) first = Ok (s1, ev1) /\ cm_state (f_cm s1) = AInitializing /\ ECreated 1 ∈ ev1 /\ guarded (fs true) polite s1 rest /\
  exists s ev2, run (fs true) s1 rest = Ok (s, ev2) /\ 0 ∉ f_bye s /\ starts 1 (ev1 ++ ev2) = 1%nat /\ answered s 1.
Proof.
  split; [apply (guardedb_sound _ (fun s o => bool_decide (orderly s o)) orderly (fun s o => bool_decide_eq_true_1 _)); vm_compute; reflexivity|].
  assert (H : match run (fs true) (finit false) first with Ok (s1, ev1) => bool_decide (cm_state (f_cm s1) = AInitializing) && bool_decide (ECreated 1 ∈ ev1) && guardedb (fs true) politeb s1 rest &&
    match run (fs true) s1 rest with Ok (s, ev2) => bool_decide (0 ∉ f_bye s) && bool_decide (starts 1 (ev1 ++ ev2) = 1%nat) && bool_decide (state_of s 1 = Some AInitialized) | _ => false end | _ => false end = true) by (vm_compute; reflexivity).
  destruct (run (fs true) (finit false) first) as [[s1 ev1]| |]; [|discriminate..]. apply andb_true_iff in H as [[[A B]%andb_true_iff C]%andb_true_iff E]. apply bool_decide_eq_true_1 in A, B.
  exists s1, ev1. split; [reflexivity|]. split; [exact A|]. split; [exact B|]. split; [apply (guardedb_sound _ politeb); [apply politeb_sound|exact C]|].
  destruct (run (fs true) s1 rest) as [[s ev2]| |]; [|discriminate..]. apply andb_true_iff in E as [[F G]%andb_true_iff K]. apply bool_decide_eq_true_1 in F, G, K.
  exists s, ev2. split; [reflexivity|]. split; [exact F|]. split; [exact G|]. exists AInitialized. split; [exact K|by left].
Qed.
(** Without synchronized start the trigger leaves with the answer; with it nothing leaves before the start. *)
Example C83_when : match run (fs false) (finit false) (first ++ [FChildInit 1 false; D]), run (fs true) (finit false) (first ++ [FChildInit 1 false; D]) with
  | Ok (_, e1), Ok (_, e2) => bool_decide (starts 1 e1 = 1%nat) && bool_decide (starts 1 e2 = 0%nat) | _, _ => false end = true.
Proof. vm_compute. reflexivity. Qed.
(** An actor which is created between the initialization and the start is told too early. *)
Example C83_early : match run (fs true) (finit false) [D; FInitialized; D; FCreate false false; FStarted] with
  | Ok (s, ev) => bool_decide (starts 1 ev = 1%nat) && bool_decide (state_of s 1 = Some AInitializing) | _ => false end = true.
Proof. vm_compute. reflexivity. Qed.

(** In the tree of TreeAllProps.v, with and without synchronized start, the actors of the lowest supervisor have been told once. *)
Definition told_once (t : tstate) : bool := match t !! [1; 1] with Some nd => bool_decide (starts 1 (n_ev nd) = 1%nat /\ starts 3 (n_ev nd) = 1%nat) | None => false end.
Example C83_trees : guarded TreeTopProps.synced tidy tinit (TreeUpProps.dawn ++ TreeAllProps.day) /\ guarded TreeProps.ts tidy tinit (TreeUpProps.dawn ++ TreeAllProps.day) /\
  match run TreeTopProps.synced tinit (TreeUpProps.dawn ++ TreeAllProps.day), run TreeProps.ts tinit (TreeUpProps.dawn ++ TreeAllProps.day) with Ok (t, _), Ok (t', _) => told_once t && told_once t' | _, _ => false end = true.
Proof.
  split; [apply (guardedb_sound _ (fun t o => bool_decide (tidy t o)) tidy (fun t o => bool_decide_eq_true_1 _)); vm_compute; reflexivity|].
  split; [apply (guardedb_sound _ (fun t o => bool_decide (tidy t o)) tidy (fun t o => bool_decide_eq_true_1 _)); vm_compute; reflexivity|vm_compute; reflexivity].
Qed.

Print Assumptions C83_once.
Print Assumptions C83_family.
Print Assumptions C83_tree.
Print Assumptions C83_free.
Print Assumptions C83_sync.
