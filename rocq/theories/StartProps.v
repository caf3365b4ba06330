(** C75: a supervisor which waits for its children is told to go on, and a tree which
    starts never waits for nobody. *)
From stdpp Require Import base list gmap.
From Verif Require Import Base ChildMgrModel ChildMgrSpec FamilyModel FamilySpec FamilyInv FamilyProofs FamilyInit FamilyProps TreeModel TreeSpec FamilyStartSpec FamilyStartProofs TreeStartSpec TreeStartProofs TreeProps.
Open Scope N_scope.

(** Once a supervisor has objected to its own initialization because of a child, then
    when nothing is under way any more and it still initializes, it was told to go on
    afterwards, or it failed, or it still has its init request and there is a child on
    its list which has work to do: its init request in hand, or its shutdown. *)
Theorem C75_told : forall hp policy sync ops1 ops2 s1 ev1 s2 ev2, guarded (fstep hp policy sync) orderly (finit hp) (ops1 ++ ops2) ->
  run (fstep hp policy sync) (finit hp) ops1 = Ok (s1, ev1) -> run (fstep hp policy sync) s1 ops2 = Ok (s2, ev2) ->
  waiting (f_cm s1) -> settled s2 -> cm_state (f_cm s2) = AInitializing ->
  EInitContinue ∈ ev2 \/ failed (ev1 ++ ev2) \/ (cm_initreq (f_cm s2) = true /\ exists c, listed c (ev1 ++ ev2) /\ (busy s2 c \/ leaving s2 c)).
Proof. exact fam_told. Qed.

(** The step in which the last child without an answer answers or leaves the list is the
    one which tells the supervisor to go on, or reports the failure. *)
Theorem C75_last : forall hp policy sync ops s ev o s' e, guarded (fstep hp policy sync) orderly (finit hp) (ops ++ [o]) ->
  run (fstep hp policy sync) (finit hp) ops = Ok (s, ev) -> fstep hp policy sync s o = Ok (s', e) ->
  cm_state (f_cm s) = AInitializing -> cm_initreq (f_cm s) = true -> cm_state (f_cm s') = AInitializing ->
  (exists c, unanswered (f_cm s) c) -> (forall c, ~ unanswered (f_cm s') c) -> EInitContinue ∈ e \/ EInitError ∈ e.
Proof. exact fam_last. Qed.

(** A child manager objects only because of a child which is on the list, initializes
    and has not answered. *)
Theorem C75_objects : forall hp policy sync ops s ev, guarded (fstep hp policy sync) orderly (finit hp) ops ->
  run (fstep hp policy sync) (finit hp) ops = Ok (s, ev) -> has_initializing (f_cm s) = true ->
  exists c, unanswered (f_cm s) c /\ state_of s c = Some AInitializing.
Proof. exact fam_objects. Qed.

(** A tree in which no message is under way: at or below every supervisor which holds its
    init request there is one which holds its own and whose child manager agrees, or
    which has failed, or which has an ordinary actor that has its init request in hand. *)
Theorem C75_tree : forall pol sync ops t ev, guarded (tstep pol sync) tidy tinit ops -> run (tstep pol sync) tinit ops = Ok (t, ev) -> still t ->
  forall n nd, starting t n nd -> exists l nd', starting t (l ++ n) nd' /\ at_work t (l ++ n) nd'.
Proof. exact tree_start. Qed.

(** One child; it answers. *)
Definition waits : list fop := [FCreate false false; FamilyProps.D; FamilyProps.D; FamilyProps.D].
Definition answers : list fop := [FChildInit 1 false; FamilyProps.D].
Example C75_waits_ex : exists s ev, run fs (finit false) waits = Ok (s, ev) /\ settled s /\ waiting (f_cm s) /\ busy s 1 /\ unanswered (f_cm s) 1.
Proof.
  assert (exists s ev, run fs (finit false) waits = Ok (s, ev) /\
    ((f_q s = [] /\ map_Forall (fun _ l => l = []) (f_up s) /\ map_Forall (fun _ l => l = []) (f_down s) /\ 0 ∉ f_bye s) /\
     (cm_state (f_cm s) = AInitializing /\ cm_initreq (f_cm s) = true /\ has_initializing (f_cm s) = true) /\ 1 ∈ f_init s /\
     match cm_children (f_cm s) !! 1 with Some ch => ch_initreq ch | None => false end = true /\
     match cm_map (f_cm s) !! 1 with Some i => bool_decide (ci_actor i = Some 1) && negb (ci_initialized i) | None => false end = true)) as (s & ev & H & (H1 & H2 & H3 & H4) & H5 & H6 & H7 & H8).
  { FamilyProps.by_outcome. }
  exists s, ev. split; [exact H|]. split; [by apply settled_maps|]. split; [exact H5|]. split.
  - split; [exact H6|]. destruct (cm_children (f_cm s) !! 1) as [ch|]; [|done]. by exists ch.
  - split; [done|]. destruct (cm_map (f_cm s) !! 1) as [i|]; [|done]. exists i. apply andb_true_iff in H8 as [E1%bool_decide_eq_true_1 E2%negb_true_iff]. by split_and!.
Qed.
Example C75_told_ex : guarded fs orderly (finit false) (waits ++ answers) /\ exists s ev, run fs (finit false) (waits ++ answers) = Ok (s, ev) /\
  settled s /\ cm_state (f_cm s) = AInitializing /\ EInitContinue ∈ ev.
Proof. split; [FamilyProps.by_guard|]. by_settled (waits ++ answers) (fun (s : fstate) (ev : list cevent) => cm_state (f_cm s) = AInitializing /\ EInitContinue ∈ ev). Qed.
(** Three supervisors, one below the other, all wait for the actor at the bottom. *)
Definition stillb (nd : node) : bool :=
  bool_decide (f_q (n_fam nd) = []) && forallb (fun x => match x.2 with [] => true | _ => false end) (map_to_list (f_up (n_fam nd))) &&
  forallb (fun x => match x.2 with [] => true | _ => false end) (map_to_list (f_down (n_fam nd))) && bool_decide (0 ∉ f_bye (n_fam nd)).
Lemma forallb_all {A} (m : gmap N (list A)) : forallb (fun x => match x.2 with [] => true | _ => false end) (map_to_list m) = true -> map_Forall (fun _ l => l = []) m.
Proof.
  intros H k l Hk. rewrite forallb_forall in H. apply elem_of_map_to_list, elem_of_list_In in Hk. apply H in Hk. cbn in Hk. by destruct l.
Qed.
Lemma stillb_settled nd : stillb nd = true -> settled (n_fam nd).
Proof.
  unfold stillb. intros [[[A B]%andb_true_iff C]%andb_true_iff E]%andb_true_iff. apply bool_decide_eq_true_1 in A, E. apply settled_maps; [done|by apply forallb_all|by apply forallb_all|done].
Qed.
Definition nodeb (t : tstate) (n : list N) (f : node -> bool) : bool := match t !! n with Some nd => bool_decide (sup_state nd = AInitializing) && cm_initreq (f_cm (n_fam nd)) && f nd | None => false end.
Lemma nodeb_node t n f : nodeb t n f = true -> exists nd, starting t n nd /\ f nd = true.
Proof.
  unfold nodeb. destruct (t !! n) as [nd|] eqn:Hn; [|discriminate]. intros [[A B]%andb_true_iff C]%andb_true_iff. apply bool_decide_eq_true_1 in A. exists nd. split; [|exact C].
  split; [exact Hn|]. by split.
Qed.
Definition busyb (s : fstate) (c : N) : bool := bool_decide (c ∈ f_init s) && match cm_children (f_cm s) !! c with Some ch => ch_initreq ch | None => false end.
Lemma busyb_busy s c : busyb s c = true -> busy s c.
Proof. intros [A B]%andb_true_iff. apply bool_decide_eq_true_1 in A. split; [exact A|]. destruct (cm_children (f_cm s) !! c) as [ch|]; [|discriminate]. by exists ch. Qed.
Definition treeb (t : tstate) : bool :=
  forallb (fun x => stillb x.2) (map_to_list t) && nodeb t [] (fun nd => has_initializing (f_cm (n_fam nd))) &&
  nodeb t [1; 1] (fun nd => negb (bool_decide (is_Some (t !! [1; 1; 1]))) && busyb (n_fam nd) 1).
Lemma begin_tree : match run ts tinit begin with Ok (t, _) => treeb t | _ => false end = true.
Proof. vm_compute. reflexivity. Qed.
Example C75_tree_ex : guarded ts tidy tinit begin /\ exists t ev, run ts tinit begin = Ok (t, ev) /\ still t /\
  (exists nd, starting t [] nd /\ has_initializing (f_cm (n_fam nd)) = true) /\
  (exists nd, starting t [1; 1] nd /\ t !! [1; 1; 1] = None /\ busy (n_fam nd) 1).
Proof.
  split; [TreeProps.by_guard|]. pose proof begin_tree as H. destruct (run ts tinit begin) as [[t ev]| |]; [|discriminate..]. exists t, ev. split; [reflexivity|].
  unfold treeb in H. apply andb_true_iff in H as [[A B]%andb_true_iff C]. apply nodeb_node in B, C. split; [|split; [exact B|]].
  - intros n nd Hn. rewrite forallb_forall in A. apply elem_of_map_to_list, elem_of_list_In in Hn. apply A in Hn. by apply stillb_settled.
  - destruct C as (nd & C1 & [C2 C3]%andb_true_iff). exists nd. split; [exact C1|]. split; [|by apply busyb_busy]. apply negb_true_iff, bool_decide_eq_false_1 in C2. by apply eq_None_not_Some.
Qed.

Print Assumptions C75_told.
Print Assumptions C75_last.
Print Assumptions C75_objects.
Print Assumptions C75_tree.
