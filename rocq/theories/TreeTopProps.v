(** C81: a tree of supervisors starts from the root. *)
From stdpp Require Import base list gmap.
From Verif Require Import Base ChildMgrModel FamilyModel FamilySpec TreeModel TreeSpec TreeTopSpec TreeTopProofs.
From Verif Require TreeProps.
Open Scope N_scope.

(** Whoever is operational was told to start by its supervisor. *)
Theorem C81_told : forall pol sync ops t ev n nd c, guarded (tstep pol sync) tidy_told tinit ops -> run (tstep pol sync) tinit ops = Ok (t, ev) ->
  t !! n = Some nd -> c <> 0 -> state_of (n_fam nd) c = Some AOperational -> EStart c ∈ n_ev nd.
Proof. exact tree_told. Qed.
Theorem C81_self : forall pol sync ops t ev c n nd, guarded (tstep pol sync) tidy_told tinit ops -> run (tstep pol sync) tinit ops = Ok (t, ev) ->
  t !! (c :: n) = Some nd -> ESupStart ∈ n_ev nd -> triggered t n c.
Proof. intros pol sync ops t ev c n nd Hg H. exact (tree_self pol sync ops t ev (c :: n) nd Hg H). Qed.

(** With synchronized start at all supervisors from [m] down to that of an actor: the actor is operational
    only if [m] has started. *)
Theorem C81_top : forall pol sync ops t ev l m nd c, guarded (tstep pol sync) tidy_told tinit ops -> run (tstep pol sync) tinit ops = Ok (t, ev) ->
  t !! (l ++ m) = Some nd -> (forall l1 l2, l = l1 ++ l2 -> sync (l2 ++ m) = true) -> c <> 0 -> state_of (n_fam nd) c = Some AOperational ->
  exists md, t !! m = Some md /\ ESupStart ∈ n_ev md.
Proof. exact tree_top. Qed.
(** So as long as the root has not started, nobody is operational: neither a supervisor nor an actor. *)
Theorem C81_root : forall pol sync ops t ev rd n nd, guarded (tstep pol sync) tidy_told tinit ops -> run (tstep pol sync) tinit ops = Ok (t, ev) -> (forall n, sync n = true) ->
  t !! [] = Some rd -> ESupStart ∉ n_ev rd -> t !! n = Some nd -> (forall c, c <> 0 -> state_of (n_fam nd) c <> Some AOperational) /\ (n <> [] -> sup_state nd <> AOperational) /\ ESupStart ∉ n_ev nd.
Proof.
  intros pol sync ops t ev rd n nd Hg H Hsy Hrd Hns Hn.
  assert (Hc : forall m md c, t !! m = Some md -> c <> 0 -> state_of (n_fam md) c <> Some AOperational).
  { intros m md c Hm Hc Hs. destruct (tree_top pol sync ops t ev m [] md c Hg H) as (rd' & Hr & Hi); [by rewrite app_nil_r|done|done|done|]. congruence. }
  destruct (top_inv pol sync ops t ev Hg H) as [A B]. split; [intros c; by apply (Hc n nd)|]. split.
  - intros Hne Ho. destruct n as [|c p]; [done|]. destruct (TreeProofs.te_par _ _ _ _ A c p nd Hn) as (pd & Hp & Hcr).
    apply (Hc p pd c Hp); [|rewrite (TreeProofs.lk_state _ _ _ _ _ _ (TreeProofs.good_link _ _ _ _ _ _ _ A Hn Hp)); by rewrite Ho].
    intros ->. destruct (TreeProofs.te_node _ _ _ _ A _ pd Hp) as [K1 K2 _]. by destruct (ChildMgrTrace.h_next _ _ (ChildMgrTrace.ai_h _ _ _ (FamilyProofs.fi_all _ _ (FamilyProofs.fam_reach _ _ _ _ _ _ K1 K2))) 0 Hcr).
  - intros Hs. destruct (climb pol sync t A B n [] nd) as (rd' & Hr & Hi); [by rewrite app_nil_r|done|done|]. congruence.
Qed.

(** ** Runs *)
Definition triggeredb (t : tstate) (n : list N) (c : N) : bool := match t !! n with Some nd => bool_decide (EStart c ∈ n_ev nd) | None => false end.
Definition toldb (t : tstate) (o : top) : bool := match o with TStarted n c | TOp n (FChildStart c) => triggeredb t n c | _ => true end.
Definition tidy_toldb (t : tstate) (o : top) : bool := bool_decide (tidy t o) && toldb t o.
Lemma triggeredb_sound t n c : triggeredb t n c = true -> triggered t n c.
Proof. unfold triggeredb, triggered. destruct (t !! n) as [nd|]; [|done]. intros H. apply bool_decide_eq_true_1 in H. by exists nd. Qed.
Lemma tidy_toldb_sound t o : tidy_toldb t o = true -> tidy_told t o.
Proof.
  intros [H1 H2]%andb_true_iff. split; [by apply bool_decide_eq_true_1 in H1|]. destruct o as [n o| | | |]; try done; [destruct o; try done|]; by apply triggeredb_sound.
Qed.
Definition is (st : astate) (t : tstate) (n : list N) (c : N) : bool := match t !! n with Some nd => bool_decide (state_of (n_fam nd) c = Some st) | None => false end.
Notation D := TreeProps.D.
Definition to_root : list top := TreeProps.begin ++ [TOp [1; 1] (FChildInit 1 false); D [1; 1]; TInited [1] 1; D [1]; TInited [] 1; D []; TOp [] FInitialized; D []].
Definition all_up : list top := [TOp [] FStarted; TStarted [] 1; TStarted [1] 1; TOp [1; 1] (FChildStart 1)].
Definition synced := tstep (fun _ => PShutdownFailed) (fun _ => true).
Example C81_up : guarded synced tidy_told tinit (to_root ++ all_up) /\
  match run synced tinit to_root with Ok (t, _) => is AInitialized t [] 1 && is AInitialized t [1] 1 && is AInitialized t [1; 1] 1 && negb (triggeredb t [] 1) | _ => false end = true /\
  match run synced tinit (to_root ++ all_up) with Ok (t, _) => is AOperational t [] 1 && is AOperational t [1] 1 && is AOperational t [1; 1] 1 | _ => false end = true.
Proof. split; [apply (guardedb_sound _ tidy_toldb); [apply tidy_toldb_sound|]; vm_compute; reflexivity|]. split; vm_compute; reflexivity. Qed.

(** Without synchronized start an actor works while the supervisors above it are still initializing. *)
Theorem C81_free_refuted : exists ops t ev, guarded (tstep (fun _ => PShutdownFailed) (fun _ => false)) tidy_told tinit ops /\ run (tstep (fun _ => PShutdownFailed) (fun _ => false)) tinit ops = Ok (t, ev) /\
  TreeProps.at_node t [1; 1] (fun nd => state_of (n_fam nd) 1 = Some AOperational /\ sup_state nd = AInitializing) /\ TreeProps.at_node t [1] (fun nd => sup_state nd = AInitializing) /\ TreeProps.at_node t [] (fun nd => sup_state nd = AInitializing).
Proof.
  exists (TreeProps.begin ++ [TOp [1; 1] (FChildInit 1 false); D [1; 1]; TOp [1; 1] (FChildStart 1)]).
  assert (exists t ev, run TreeProps.ts tinit (TreeProps.begin ++ [TOp [1; 1] (FChildInit 1 false); D [1; 1]; TOp [1; 1] (FChildStart 1)]) = Ok (t, ev) /\
    TreeProps.at_node t [1; 1] (fun nd => state_of (n_fam nd) 1 = Some AOperational /\ sup_state nd = AInitializing) /\ TreeProps.at_node t [1] (fun nd => sup_state nd = AInitializing) /\ TreeProps.at_node t [] (fun nd => sup_state nd = AInitializing)) as (t & ev & H).
  { TreeProps.by_outcome. }
  exists t, ev. split; [|exact H]. apply (guardedb_sound _ tidy_toldb); [apply tidy_toldb_sound|]. vm_compute. reflexivity.
Qed.

Print Assumptions C81_told.
Print Assumptions C81_self.
Print Assumptions C81_top.
Print Assumptions C81_root.
Print Assumptions C81_free_refuted.
