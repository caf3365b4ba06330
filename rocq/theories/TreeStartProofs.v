(** C75 for a tree of supervisors. *)
From stdpp Require Import base list gmap.
From Verif Require Import Base ChildMgrModel ChildMgrSpec ChildMgrProofs ChildMgrTrace ChildMgrFacts FamilyModel FamilySpec FamilySteps FamilyFold FamilyInv FamilyChild FamilyProofs FamilyInit TreeModel TreeSpec TreeSteps TreeInv TreeNode TreeProofs FamilyStartSpec FamilyStartProofs TreeStartSpec.
Open Scope N_scope.

(** The step in which the last child without an answer answers or leaves. *)
Lemma fam_last hp policy sync ops s ev o s' e : guarded (fstep hp policy sync) orderly (finit hp) (ops ++ [o]) -> run (fstep hp policy sync) (finit hp) ops = Ok (s, ev) ->
  fstep hp policy sync s o = Ok (s', e) -> cm_state (f_cm s) = AInitializing -> cm_initreq (f_cm s) = true -> cm_state (f_cm s') = AInitializing ->
  (exists c, unanswered (f_cm s) c) -> (forall c, ~ unanswered (f_cm s') c) -> EInitContinue ∈ e \/ EInitError ∈ e.
Proof.
  intros Hg Hr H Hs Hq Hs' Hu Hn. destruct (guarded_split hp policy sync ops _ [o] s ev Hg Hr) as [Hg1 _].
  destruct (told_fstep hp policy sync s ev o s' e (fam_oall _ _ _ _ _ _ Hg1 Hr) H Hs Hs' Hq Hu) as [[_ [c Hc]]|[?|?]]; [|by left|by right]. exfalso. by apply (Hn c).
Qed.
(** A child manager which objects has a child which has not answered. *)
Lemma fam_objects hp policy sync ops s ev : guarded (fstep hp policy sync) orderly (finit hp) ops -> run (fstep hp policy sync) (finit hp) ops = Ok (s, ev) ->
  has_initializing (f_cm s) = true -> exists c, unanswered (f_cm s) c /\ state_of s c = Some AInitializing.
Proof.
  intros Hg Hr Hw. pose proof (fam_oall _ _ _ _ _ _ Hg Hr) as Ha. destruct (waits_uninit (f_cm s)) as (c & ch & Hu & Hch & Hrk); [by eapply okey|by eapply okids|done|].
  exists c. split; [exact Hu|]. destruct Ha as (_ & Ho & _). destruct Hu as [Hc0 _]. pose proof (o_new _ _ Ho c Hc0) as Hn. unfold state_of in *. rewrite Hch in *. cbn in *.
  f_equal. destruct (ch_state ch); try done; by destruct Hn.
Qed.

Section tree.
Context (pol : list N -> spolicy) (sync : list N -> bool).
Notation tstep := (tstep pol sync).

Lemma bounded (t : tstate) : exists M : nat, forall n nd, t !! n = Some nd -> (length n <= M)%nat.
Proof.
  exists (max_list (length <$> (map_to_list t).*1)). intros n nd H. apply max_list_elem_of_le. apply elem_of_list_fmap. exists n. split; [done|].
  apply elem_of_list_fmap. exists (n, nd). split; [done|]. by apply elem_of_map_to_list.
Qed.

Lemma tree_start ops t ev : guarded tstep tidy tinit ops -> run tstep tinit ops = Ok (t, ev) -> still t -> forall n nd, starting t n nd ->
  exists l nd', starting t (l ++ n) nd' /\ at_work t (l ++ n) nd'.
Proof.
  intros Hg Hr Hq. pose proof (tree_good pol sync ops t ev Hg Hr) as Hgood. destruct (bounded t) as [M HM].
  assert (Hind : forall k n nd, (M <= length n + k)%nat -> starting t n nd -> exists l nd', starting t (l ++ n) nd' /\ at_work t (l ++ n) nd').
  { induction k as [|k IH]; intros n nd Hk Hst; pose proof Hst as (Hn & Hs & Hi).
    all: destruct (has_initializing (f_cm (n_fam nd))) eqn:Hw; [|exists [], nd; split; [done|by left]].
    all: assert (Hok : nodeok pol sync n nd) by (by apply Hgood).
    all: destruct (fam_objects _ _ _ _ _ _ (no_guard _ _ _ _ Hok) (no_run _ _ _ _ Hok) Hw) as (c & Hc & Hcs).
    all: assert (Hrk : rank (cm_state (f_cm (n_fam nd))) < 5) by (unfold sup_state in Hs; by rewrite Hs).
    all: destruct (settled_uninit _ _ _ _ _ _ c (no_guard _ _ _ _ Hok) (no_run _ _ _ _ Hok) (Hq _ _ Hn) Hrk Hc) as [Hl [Hx|[Hx|Hx]]];
      [exists [], nd; split; [done|]; by right; left| |unfold leaving in Hx; congruence].
    all: destruct (t !! (c :: n)) as [m|] eqn:Hm; [|exists [], nd; split; [done|]; right; right; by exists c].
    - apply HM in Hm. cbn in Hm. lia.
    - pose proof (good_link pol sync t c n m nd Hgood Hm Hn) as L. destruct (IH (c :: n) m) as (l & nd' & H1 & H2).
      + cbn. lia.
      + destruct Hx as [_ (ch & Hch & Hci)]. pose proof (lk_state _ _ _ _ _ _ L) as Hls. rewrite Hcs in Hls. injection Hls as Hls. split; [done|]. split; [done|].
        rewrite <-(lk_init _ _ _ _ _ _ L ch Hch); [done|]. unfold state_of in Hcs. rewrite Hch in Hcs. cbn in Hcs. congruence.
      + exists (l ++ [c]), nd'. by rewrite <-(assoc_L (++)). }
  intros n nd. apply (Hind M). lia.
Qed.
End tree.
