From stdpp Require Import base list.
From Coq Require Import NArith.
From Verif Require Import Base ConfigModel ConfigSpec.
Open Scope N_scope.

Lemma last_value_snoc {A} (f : setter -> option A) l s :
  last_value f (l ++ [s]) = match f s with Some v => Some v | None => last_value f l end.
Proof. induction l as [|x l IH]; simpl; [by destruct (f s)|]. rewrite IH. destruct (f s); [done|]. by destruct (last_value f l). Qed.
Lemma existsb_snoc (f : setter -> bool) l s : existsb f (l ++ [s]) = f s || existsb f l.
Proof. rewrite existsb_app. simpl. rewrite orb_false_r. apply orb_comm. Qed.

Definition bit (b : bool) (v : N) : N := if b then v else 0.
Definition mask_of (k : kind) (l : list setter) : N :=
  bit (negb (existsb gives_init l)) 1 + bit (negb (existsb gives_shutdown l)) 2 +
  bit (needs_2 k && negb (existsb gives_2 l)) 4 + bit (needs_3 k && negb (existsb gives_3 l)) 8.

Lemma configure_spec k l :
  configure k l = Builder (Config (last_value v_init l) (last_value v_shutdown l)
                     (match last_value v_registry l with Some a => a | None => None end) (wants_registry l)) (mask_of k l).
Proof.
  unfold configure. induction l as [|s l IH] using rev_ind; [by destruct k|].
  rewrite fold_left_app, IH. simpl. unfold wants_registry, mask_of. rewrite !last_value_snoc, !existsb_snoc.
  destruct s; simpl; f_equal;
    destruct (existsb gives_init l), (existsb gives_shutdown l), (existsb gives_2 l), (existsb gives_3 l);
    try destruct k; reflexivity.
Qed.

Lemma mask_zero k l : N.eqb (mask_of k l) 0 = complete k l.
Proof.
  unfold mask_of, complete.
  destruct (existsb gives_init l), (existsb gives_shutdown l), (existsb gives_2 l), (existsb gives_3 l);
    destruct k; reflexivity.
Qed.

Lemma validate_spec k l : validate k (configure k l) = well_configured k l.
Proof.
  rewrite configure_spec. unfold validate, well_configured, external_registry. simpl. rewrite mask_zero.
  destruct (complete k l), (is_sup k); simpl; try done. by destruct (last_value v_registry l) as [[|]|].
Qed.

(** The outcome of [finish] with any install action. *)
Lemma created_iff {S} k l (install : S -> config -> S * list event * bool) s s' e alive :
  finish k (configure k l) install s = (s', e, alive) ->
  (if well_configured k l then exists e', e = ECreated (b_config (configure k l)) :: e' else
     s' = s /\ e = [EMisconfigured] /\ alive = false).
Proof.
  unfold finish. rewrite validate_spec. destruct (well_configured k l); intros H.
  - destruct (install s _) as [[s1 e1] a1]. inversion H; subst. by eexists.
  - by inversion H.
Qed.

Lemma created_values k l :
  let c := b_config (configure k l) in
  c_init c = last_value v_init l /\ c_shutdown c = last_value v_shutdown l /\
  (well_configured k l = true -> is_Some (c_init c) /\ is_Some (c_shutdown c)).
Proof.
  rewrite configure_spec. simpl. split; [done|]. split; [done|].
  intros H. unfold well_configured, complete in H. rewrite !andb_true_iff in H. destruct H as [[[[H1 H2] _] _] _]. split.
  - clear H2. induction l as [|s l IH] using rev_ind; [done|]. rewrite last_value_snoc. rewrite existsb_snoc in H1.
    destruct s; simpl in *; try (by eexists); by apply IH.
  - clear H1. induction l as [|s l IH] using rev_ind; [done|]. rewrite last_value_snoc. rewrite existsb_snoc in H2.
    destruct s; simpl in *; try (by eexists); by apply IH.
Qed.

Lemma child_created k l n n' e alive :
  finish k (configure k l) install_child n = (n', e, alive) ->
  alive = well_configured k l /\ n' = n + (if well_configured k l then 1 else 0) /\
  (In EMisconfigured e <-> well_configured k l = false) /\
  (forall c, In (ECreated c) e -> well_configured k l = true /\ c = b_config (configure k l)).
Proof.
  unfold finish. rewrite validate_spec. destruct (well_configured k l); intros H; simpl in H; inversion H; subst; simpl.
  - split; [done|]. split; [done|]. split.
    + split; [|done]. intros [H1|[H1|[]]]; discriminate.
    + intros c [H1|[H1|[]]]; [|discriminate]. by inversion H1.
  - split; [done|]. split; [lia|]. split; [split; [done|by left]|]. intros c [H1|[]]; discriminate.
Qed.

(** ** One root supervisor *)
Lemma croot_spec has k l :
  croot has (k, l) = Ok (has || well_configured k l,
    if well_configured k l then ECreated (b_config (configure k l)) ::
      (if has then [ESupervisorDefined] else [EInstalled (b_config (configure k l))]) else [EMisconfigured]).
Proof.
  unfold croot, finish. simpl. rewrite validate_spec. destruct (well_configured k l); simpl.
  - by destruct has.
  - by rewrite orb_false_r.
Qed.

Lemma root_once ops has ev : run croot false ops = Ok (has, ev) ->
  has = existsb (fun o => well_configured o.1 o.2) ops /\ installs ev = if has then 1%nat else 0%nat.
Proof.
  assert (HG : forall ops h has ev, run croot h ops = Ok (has, ev) ->
    has = h || existsb (fun o => well_configured o.1 o.2) ops /\
    installs ev = if h then 0%nat else if has then 1%nat else 0%nat).
  { clear. induction ops as [|[k l] ops IH]; intros h has ev Hr.
    - simpl in Hr. inversion Hr; subst. rewrite orb_false_r. split; [done|]. by destruct has.
    - simpl in Hr. rewrite croot_spec in Hr. simpl in Hr.
      destruct (run croot (h || well_configured k l) ops) as [[h2 e2]| |] eqn:E; simpl in Hr; try done.
      inversion Hr; subst. apply IH in E as [-> E2]. simpl. rewrite orb_assoc. split; [done|].
      unfold installs in *. destruct h, (well_configured k l); simpl in *; by rewrite ?E2. }
  intros Hr. apply HG in Hr as [-> H]. done.
Qed.

Lemma root_second ops ev k l e has' :
  run croot false ops = Ok (true, ev) -> croot true (k, l) = Ok (has', e) ->
  has' = true /\ (if well_configured k l then In ESupervisorDefined e else e = [EMisconfigured]) /\
  forall c, ~ In (EInstalled c) e.
Proof.
  intros _ H. rewrite croot_spec in H. inversion H; subst. split; [done|]. destruct (well_configured k l); simpl.
  - split; [by right; left|]. intros c [H1|[H1|[]]]; discriminate.
  - split; [done|]. intros c [H1|[]]; discriminate.
Qed.
