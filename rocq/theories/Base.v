(** Shared vocabulary of the models.  Nothing here models code: it is the
    outcome type every model uses and the generic "run a list of operations"
    driver. *)
From stdpp Require Import base list.

(** Outcome of a C++ function: it returns, one of its [assert]s fails (debug
    build), or it runs into undefined behaviour / [std::terminate]. *)
Inductive res (A : Type) : Type :=
| Ok (a : A)
| AssertFail
| Crash.
Arguments Ok {A} _.
Arguments AssertFail {A}.
Arguments Crash {A}.

Definition rbind {A B} (r : res A) (f : A -> res B) : res B :=
  match r with Ok a => f a | AssertFail => AssertFail | Crash => Crash end.

(** Run a list of operations from a state, concatenating the observable
    outputs; stops at the first abnormal outcome. *)
Fixpoint run {S O E : Type} (step : S -> O -> res (S * list E)) (s : S) (ops : list O)
  : res (S * list E) :=
  match ops with
  | [] => Ok (s, [])
  | o :: ops' =>
      rbind (step s o) (fun '(s1, e1) =>
      rbind (run step s1 ops') (fun '(s2, e2) => Ok (s2, e1 ++ e2)))
  end.

Lemma run_app {S O E} (step : S -> O -> res (S * list E)) s o1 o2 :
  run step s (o1 ++ o2) =
  rbind (run step s o1) (fun '(s1, e1) =>
  rbind (run step s1 o2) (fun '(s2, e2) => Ok (s2, e1 ++ e2))).
Proof.
  revert s; induction o1 as [|o o1 IH]; intros s; simpl.
  - destruct (run step s o2) as [[s2 e2]| |]; reflexivity.
  - destruct (step s o) as [[s1 e1]| |]; simpl; try reflexivity.
    rewrite IH. destruct (run step s1 o1) as [[s2 e2]| |]; simpl; try reflexivity.
    destruct (run step s2 o2) as [[s3 e3]| |]; simpl; try reflexivity.
    by rewrite (assoc_L (++)).
Qed.

(** Invariant rule for [run]. *)
Lemma run_inv {S O E} (step : S -> O -> res (S * list E)) (I : S -> Prop) :
  (forall s o s' e, I s -> step s o = Ok (s', e) -> I s') ->
  forall ops s s' e, I s -> run step s ops = Ok (s', e) -> I s'.
Proof.
  intros Hstep ops. induction ops as [|o ops IH]; intros s s' e HI Hrun; simpl in Hrun.
  - by inversion Hrun; subst.
  - destruct (step s o) as [[s1 e1]| |] eqn:Hs; simpl in Hrun; try discriminate.
    destruct (run step s1 ops) as [[s2 e2]| |] eqn:Hr; simpl in Hrun; try discriminate.
    inversion Hrun; subst. eapply IH; [|exact Hr]. eapply Hstep; eauto.
Qed.

(** Total safety rule: if the invariant also excludes abnormal outcomes, every
    run is normal. *)
Lemma run_safe {S O E} (step : S -> O -> res (S * list E)) (I : S -> Prop) :
  (forall s o, I s -> exists s' e, step s o = Ok (s', e) /\ I s') ->
  forall ops s, I s -> exists s' e, run step s ops = Ok (s', e) /\ I s'.
Proof.
  intros Hstep ops. induction ops as [|o ops IH]; intros s HI; simpl.
  - eauto.
  - destruct (Hstep s o HI) as (s1 & e1 & -> & HI1); simpl.
    destruct (IH s1 HI1) as (s2 & e2 & -> & HI2); simpl. eauto.
Qed.

(** Every operation of the run satisfies [ok] in the state where it is issued. *)
Fixpoint guarded {S O E : Type} (step : S -> O -> res (S * list E)) (ok : S -> O -> Prop)
  (s : S) (ops : list O) : Prop :=
  match ops with
  | [] => True
  | o :: ops' =>
      ok s o /\
      match step s o with
      | Ok (s', _) => guarded step ok s' ops'
      | _ => True
      end
  end.

(** Invariant over state and accumulated outputs. *)
Lemma run_inv_ev {S O E} (step : S -> O -> res (S * list E)) (ok : S -> O -> Prop)
  (I : S -> list E -> Prop) :
  (forall s ev o s' e, I s ev -> ok s o -> step s o = Ok (s', e) -> I s' (ev ++ e)) ->
  forall ops s ev s' e, I s ev -> guarded step ok s ops -> run step s ops = Ok (s', e) -> I s' (ev ++ e).
Proof.
  intros Hstep ops. induction ops as [|o ops IH]; intros s ev s' e HI Hg Hrun; simpl in Hrun.
  - inversion Hrun; subst. by rewrite app_nil_r.
  - destruct Hg as [Hok Hg].
    destruct (step s o) as [[s1 e1]| |] eqn:Hs; simpl in Hrun; try discriminate.
    destruct (run step s1 ops) as [[s2 e2]| |] eqn:Hr; simpl in Hrun; try discriminate.
    inversion Hrun; subst. rewrite (assoc_L (++)). eapply IH; eauto.
Qed.

Lemma run_safe_ev {S O E} (step : S -> O -> res (S * list E)) (ok : S -> O -> Prop)
  (I : S -> list E -> Prop) :
  (forall s ev o, I s ev -> ok s o -> exists s' e, step s o = Ok (s', e) /\ I s' (ev ++ e)) ->
  forall ops s ev, I s ev -> guarded step ok s ops ->
    exists s' e, run step s ops = Ok (s', e) /\ I s' (ev ++ e).
Proof.
  intros Hstep ops. induction ops as [|o ops IH]; intros s ev HI Hg; simpl.
  - eexists _, _. split; [done|]. by rewrite app_nil_r.
  - destruct Hg as [Hok Hg].
    destruct (Hstep s ev o HI Hok) as (s1 & e1 & Hs & HI1). rewrite Hs in Hg |- *; simpl.
    destruct (IH s1 _ HI1 Hg) as (s2 & e2 & -> & HI2); simpl.
    eexists _, _. split; [done|]. by rewrite (assoc_L (++)).
Qed.

(** Boolean version of [guarded], to discharge concrete instances. *)
Fixpoint guardedb {S O E : Type} (step : S -> O -> res (S * list E)) (ok : S -> O -> bool)
  (s : S) (ops : list O) : bool :=
  match ops with
  | [] => true
  | o :: ops' =>
      ok s o &&
      match step s o with
      | Ok (s', _) => guardedb step ok s' ops'
      | _ => true
      end
  end.

Lemma guardedb_sound {S O E} (step : S -> O -> res (S * list E)) (okb : S -> O -> bool) (ok : S -> O -> Prop) :
  (forall s o, okb s o = true -> ok s o) ->
  forall ops s, guardedb step okb s ops = true -> guarded step ok s ops.
Proof.
  intros Hok ops. induction ops as [|o ops IH]; intros s H; simpl in *; [done|].
  apply andb_prop in H as [H1 H2]. split; [auto|].
  destruct (step s o) as [[s' e]| |]; auto.
Qed.
