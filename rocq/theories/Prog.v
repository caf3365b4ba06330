(** A small vocabulary to write the functions of a class: they read and change a
    state, emit events, and may fail an assertion or crash.  Nothing here models
    code.  The second part is a
    calculus of weakest preconditions for them. *)
From stdpp Require Import base list.
From Verif Require Import Base.

Section prog.
Context {S E : Type}.

Definition prog (A : Type) : Type := S -> res (S * list E * A).
Definition ret {A} (a : A) : prog A := fun s => Ok (s, [], a).
Definition bnd {A B} (m : prog A) (f : A -> prog B) : prog B := fun s =>
  match m s with
  | Ok (s1, e1, a) =>
      match f a s1 with Ok (s2, e2, b) => Ok (s2, e1 ++ e2, b) | AssertFail => AssertFail | Crash => Crash end
  | AssertFail => AssertFail
  | Crash => Crash
  end.
Definition get : prog S := fun s => Ok (s, [], s).
Definition put (s' : S) : prog unit := fun _ => Ok (s', [], tt).
Definition modify (f : S -> S) : prog unit := fun s => Ok (f s, [], tt).
Definition emit (e : E) : prog unit := fun s => Ok (s, [e], tt).
Definition check (b : bool) : prog unit := fun s => if b then Ok (s, [], tt) else AssertFail.
Definition crash {A} : prog A := fun _ => Crash.
Definition skip : prog unit := ret tt.
Definition when (b : bool) (m : prog unit) : prog unit := if b then m else skip.
Fixpoint each {A} (l : list A) (f : A -> prog unit) : prog unit :=
  match l with [] => skip | x :: r => bnd (f x) (fun _ => each r f) end.
(** As a step function of [run]. *)
Definition to_step (m : prog unit) (s : S) : res (S * list E) :=
  match m s with Ok (s', e, _) => Ok (s', e) | AssertFail => AssertFail | Crash => Crash end.

Local Notation asrt := (S -> list E -> Prop).
(** ** Weakest preconditions.  [wp t m Q s ev]: run from [s] after the trace [ev],
    [m] ends with [Q]; with [t] it does not fail either. *)
Definition wp {A} (t : bool) (m : prog A) (Q : A -> S -> list E -> Prop) (s : S) (ev : list E) : Prop :=
  match m s with Ok (s', e, a) => Q a s' (ev ++ e) | _ => t = false end.

Lemma wp_mono {A} t (m : prog A) (Q Q' : A -> S -> list E -> Prop) s ev :
  wp t m Q s ev -> (forall a s' ev', Q a s' ev' -> Q' a s' ev') -> wp t m Q' s ev.
Proof. unfold wp. destruct (m s) as [[[s1 e1] a]| |]; auto. Qed.
Lemma wp_ret {A} t (a : A) (Q : A -> asrt) s ev : Q a s ev -> wp t (ret a) Q s ev.
Proof. unfold wp, ret. by rewrite app_nil_r. Qed.
Lemma wp_bnd {A B} t (m : prog A) (f : A -> prog B) (Q : B -> asrt) s ev :
  wp t m (fun a => wp t (f a) Q) s ev -> wp t (bnd m f) Q s ev.
Proof.
  unfold wp, bnd. destruct (m s) as [[[s1 e1] a]| |]; [|done..]. destruct (f a s1) as [[[s2 e2] b]| |]; [|done..].
  by rewrite (assoc_L (++)).
Qed.
Lemma wp_bnd_inv {A B} t (m : prog A) (f : A -> prog B) (Q : B -> asrt) s ev :
  wp t (bnd m f) Q s ev -> wp t m (fun a => wp t (f a) Q) s ev.
Proof.
  unfold wp, bnd. destruct (m s) as [[[s1 e1] a]| |]; [|done..]. destruct (f a s1) as [[[s2 e2] b]| |]; [|done..].
  by rewrite (assoc_L (++)).
Qed.
Lemma wp_assoc {A B C} t (m : prog A) (f : A -> prog B) (g : B -> prog C) (Q : C -> asrt) s ev :
  wp t (bnd m (fun a => bnd (f a) g)) Q s ev -> wp t (bnd (bnd m f) g) Q s ev.
Proof.
  intros H. apply wp_bnd, wp_bnd. apply wp_bnd_inv in H. eapply wp_mono; [exact H|]. intros a s1 ev1. apply wp_bnd_inv.
Qed.
Lemma wp_get t (Q : S -> asrt) s ev : Q s s ev -> wp t get Q s ev.
Proof. unfold wp, get. by rewrite app_nil_r. Qed.
Lemma wp_modify t f (Q : unit -> asrt) s ev : Q tt (f s) ev -> wp t (modify f) Q s ev.
Proof. unfold wp, modify. by rewrite app_nil_r. Qed.
Lemma wp_emit t x (Q : unit -> asrt) s ev : Q tt s (ev ++ [x]) -> wp t (emit x) Q s ev.
Proof. done. Qed.
Lemma wp_check t b (Q : unit -> asrt) s ev : (t = true -> b = true) -> (b = true -> Q tt s ev) -> wp t (check b) Q s ev.
Proof. unfold wp, check. intros H1 H2. destruct b; [rewrite app_nil_r; auto|]. destruct t; [by discriminate H1|done]. Qed.
Lemma wp_crash {A} t (Q : A -> asrt) s ev : t = false -> wp t crash Q s ev.
Proof. done. Qed.
Lemma wp_skip t (Q : unit -> asrt) s ev : Q tt s ev -> wp t skip Q s ev.
Proof. apply wp_ret. Qed.
Lemma wp_when t b m (Q : unit -> asrt) s ev :
  (b = true -> wp t m Q s ev) -> (b = false -> Q tt s ev) -> wp t (when b m) Q s ev.
Proof. destruct b; cbn; intros H1 H2; [auto|]. by apply wp_skip, H2. Qed.
(** As [wp_bnd], for a [Q] already known of the first part. *)
Lemma wp_call {A B} t (m : prog A) (f : A -> prog B) (R : A -> asrt) (Q : B -> asrt) s ev :
  wp t m R s ev -> (forall a s' ev', R a s' ev' -> wp t (f a) Q s' ev') -> wp t (bnd m f) Q s ev.
Proof. intros H1 H2. apply wp_bnd. eapply wp_mono; eauto. Qed.
Lemma wp_and {A} t (m : prog A) (Q Q' : A -> S -> list E -> Prop) s ev :
  wp t m Q s ev -> wp false m Q' s ev -> wp t m (fun a s ev => Q a s ev /\ Q' a s ev) s ev.
Proof. unfold wp. destruct (m s) as [[[s1 e1] a]| |]; auto. Qed.
(** A loop, with an assertion which knows the elements to come. *)
Lemma wp_each_list {A} t (l : list A) f (I : list A -> S -> list E -> Prop) (Q : unit -> asrt) s ev :
  (forall x r s ev, I (x :: r) s ev -> wp t (f x) (fun _ => I r) s ev) -> I l s ev ->
  (forall s ev, I [] s ev -> Q tt s ev) -> wp t (each l f) Q s ev.
Proof.
  intros H HI HQ. revert s ev HI. induction l as [|x l IH]; intros s ev HI; cbn; [by apply wp_skip, HQ|].
  eapply wp_call; [apply H, HI|]. intros [] s1 ev1 H1. by apply IH.
Qed.
Lemma wp_each {A} t (l : list A) f (I : S -> list E -> Prop) s ev :
  (forall x s ev, x ∈ l -> I s ev -> wp t (f x) (fun _ => I) s ev) -> I s ev -> wp t (each l f) (fun _ => I) s ev.
Proof.
  revert s ev. induction l as [|x l IH]; intros s ev H HI; cbn; [by apply (wp_skip t (fun _ => I))|].
  eapply wp_call; [apply H; [left|done]|]. intros [] s1 ev1 H1. cbv beta in H1. apply IH; [|done]. intros y s2 ev2 Hy. apply H. by right.
Qed.

(** From programs to [run]. *)
Lemma wp_run {O} (step : O -> prog unit) (ok : S -> O -> Prop) (I : S -> list E -> Prop) :
  (forall o s ev, ok s o -> I s ev -> wp false (step o) (fun _ => I) s ev) ->
  forall ops s ev s' e, I s ev -> guarded (fun s o => to_step (step o) s) ok s ops ->
  run (fun s o => to_step (step o) s) s ops = Ok (s', e) -> I s' (ev ++ e).
Proof.
  intros H. apply run_inv_ev. intros s ev o s' e HI Hok Hs. pose proof (H o s ev Hok HI) as Hw.
  unfold to_step in Hs. unfold wp in Hw. destruct (step o s) as [[[s1 e1] []]| |]; [|done..]. by inversion Hs; subst.
Qed.
Lemma guarded_true {O} (step : S -> O -> res (S * list E)) ops s : guarded step (fun _ _ => True) s ops.
Proof. revert s. induction ops as [|o ops IH]; intros s; cbn; [done|]. split; [done|]. by destruct (step s o) as [[]| |]. Qed.
Lemma wp_run_safe {O} (step : O -> prog unit) (ok : S -> O -> Prop) (I : S -> list E -> Prop) :
  (forall o s ev, ok s o -> I s ev -> wp true (step o) (fun _ => I) s ev) ->
  forall ops s ev, I s ev -> guarded (fun s o => to_step (step o) s) ok s ops ->
  exists s' e, run (fun s o => to_step (step o) s) s ops = Ok (s', e) /\ I s' (ev ++ e).
Proof.
  intros H. apply run_safe_ev. intros s ev o HI Hok. pose proof (H o s ev Hok HI) as Hw. unfold wp in Hw. unfold to_step.
  destruct (step o s) as [[[s1 e1] []]| |]; [|done..]. by exists s1, e1.
Qed.
End prog.
Arguments prog : clear implicits.

Declare Scope prog_scope.
Notation "x <- m ;; k" := (bnd m (fun x => k)) (at level 100, m at next level, k at level 200, right associativity) : prog_scope.
Notation "m ;; k" := (bnd m (fun _ => k)) (at level 100, k at level 200, right associativity) : prog_scope.

(** Symbolic execution. *)
Ltac wp1 :=
  lazymatch goal with
  | |- wp _ (bnd (bnd _ _) _) _ _ _ => apply wp_assoc
  | |- wp _ (bnd get _) _ _ _ => apply wp_bnd, wp_get
  | |- wp _ (bnd (modify _) _) _ _ _ => apply wp_bnd, wp_modify
  | |- wp _ (bnd (emit _) _) _ _ _ => apply wp_bnd, wp_emit
  | |- wp _ (bnd (ret _) _) _ _ _ => apply wp_bnd, wp_ret
  | |- wp _ (bnd skip _) _ _ _ => apply wp_bnd, wp_skip
  | |- wp false (bnd (check _) _) _ _ _ => apply wp_bnd, wp_check; [discriminate|intros ?]
  | |- wp false (check _) _ _ _ => apply wp_check; [discriminate|intros ?]
  | |- wp false crash _ _ _ => reflexivity
  | |- wp false (bnd crash _) _ _ _ => apply wp_bnd; reflexivity
  | |- wp _ (bnd (when _ _) _) _ _ _ => apply wp_bnd, wp_when; [intros ?|intros ?]
  | |- wp _ (bnd (if ?b then _ else _) _) _ _ _ => lazymatch type of b with bool => destruct b eqn:? end
  | |- wp _ (if ?b then _ else _) _ _ _ => lazymatch type of b with bool => destruct b eqn:? end
  | |- wp _ (when _ _) _ _ _ => apply wp_when; [intros ?|intros ?]
  | |- wp _ (ret _) _ _ _ => apply wp_ret
  | |- wp _ skip _ _ _ => apply wp_skip
  | |- wp _ (modify _) _ _ _ => apply wp_modify
  | |- wp _ (emit _) _ _ _ => apply wp_emit
  | |- wp _ get _ _ _ => apply wp_get
  end; cbv beta.
Ltac wps := repeat wp1.
(** Use what is known of the next call. *)
Tactic Notation "wp_use" tactic3(t) :=
  lazymatch goal with
  | |- wp _ (bnd _ _) _ _ _ => eapply wp_call; [t|cbv beta]
  | |- _ => eapply wp_mono; [t|cbv beta]
  end.
