(** Proofs about the life cycle model. *)
From stdpp Require Import base list gmap.
From Coq Require Import String.
From Verif Require Import Base ErrorsModel LifeModel LifeSpec.
Open Scope N_scope.

Section proofs.
Context (n starter : nat) (spawned escalate auto : bool) (ident : string).
Notation step := (lstep n starter spawned escalate auto ident).
Notation loop := (loop starter).

Lemma cnt_app p a b : cnt p (a ++ b) = (cnt p a + cnt p b)%nat.
Proof. unfold cnt. by rewrite List.filter_app, app_length. Qed.
Lemma wants_app k p a b : wants k p (a ++ b) = foldl (wants_upd k p) (wants k p a) b.
Proof. unfold wants. by rewrite foldl_app. Qed.

(** ** Prefix properties *)
Definition okev (ev : list levent) (x : levent) : Prop :=
  match x with
  | EAsk k f p => wants k p ev = true /\ (p < n)%nat /\ (forall q, earlier n k q p -> passed k f q ev) /\ (forall q, EVote k f q false ∉ ev)
  | ESkip k f p => wants k p ev = false
  | EVote k f p b => EAsk k f p ∈ ev
  | EFinish k f => (forall q, (q < n)%nat -> passed k f q ev) /\ (forall q, EVote k f q false ∉ ev)
  | EInitOk f r => (exists ev', ev = ev' ++ [EFinish KInit f]) /\ EInitMsg r ∈ ev /\ cnt is_initok ev = 0%nat
  | EShutOk f r => (exists ev', ev = ev' ++ [EFinish KShut f]) /\ EShutMsg r ∈ ev /\ (cnt is_shutok ev < cnt is_shutmsg ev)%nat
  | EState _ AInitialized => exists ev' f r, ev = ev' ++ [EInitOk f r]
  | EState _ AShutDown => exists ev' f e, ev = ev' ++ EFinish KShut f :: e /\ (e = [] \/ exists r, e = [EShutOk f r])
  | EState o AOperational => exists ev' f p, ev = ev' ++ [EAsk KStart f p] /\ o = AInitialized
  | EAssign _ => forall r, EAssign r ∉ ev
  | _ => True
  end.
Definition gapp (ev e : list levent) : Prop := forall e1 x e2, e = e1 ++ x :: e2 -> okev (ev ++ e1) x.
Lemma gapp_nil ev : gapp ev [].
Proof. intros e1 x e2 H. by destruct e1. Qed.
Lemma gapp_cons ev x e : okev ev x -> gapp (ev ++ [x]) e -> gapp ev (x :: e).
Proof.
  intros Hx He e1 y e2 H. destruct e1 as [|z e1]; cbn in H; inversion H; subst.
  - by rewrite app_nil_r.
  - specialize (He e1 y e2 eq_refl). by rewrite <-(assoc_L (++)) in He.
Qed.
Lemma gapp_app ev a b : gapp ev a -> gapp (ev ++ a) b -> gapp ev (a ++ b).
Proof.
  revert ev. induction a as [|x a IH]; intros ev Ha Hb; cbn; [by rewrite app_nil_r in Hb|].
  apply gapp_cons.
  - specialize (Ha [] x a eq_refl). by rewrite app_nil_r in Ha.
  - apply IH; [|by rewrite <-(assoc_L (++))]. intros e1 y e2 ->. specialize (Ha (x :: e1) y e2 eq_refl). by rewrite <-(assoc_L (++)).
Qed.
Lemma gapp_one ev x : okev ev x -> gapp ev [x].
Proof. intros. apply gapp_cons; [done|apply gapp_nil]. Qed.

(** ** Invariant *)
Definition kstate (k : kind) (st : astate) : Prop :=
  match k with
  | KInit => st = AInitializing \/ st = AInitialized
  | KShut => st = AShuttingDown \/ st = AShutDown
  | KStart => st = AInitialized \/ st = AOperational
  end.
Definition eid (x : levent) : option N :=
  match x with ELoop _ f | ESkip _ f _ | EAsk _ f _ | EVote _ f _ _ | EFinish _ f => Some f | _ => None end.

Record linv (s : lstate) (ev : list levent) : Prop := {
  i_want : forall k p, p ∈ l_want s k <-> wants k p ev = true;
  i_ids : forall x f, x ∈ ev -> eid x = Some f -> f < l_fid s;
  i_frame : forall k f p, Frame k f p ∈ l_stack s -> f < l_fid s /\ (p < n)%nat /\ EAsk k f p ∈ ev /\
    (forall q, earlier n k q p -> passed k f q ev) /\ (forall q, EVote k f q false ∉ ev);
  i_nodup : NoDup (f_id <$> l_stack s);
  i_kind : forall k f p, Frame k f p ∈ l_stack s -> kstate k (l_state s);
  i_start : forall f p, Frame KStart f p ∈ l_stack s -> l_stack s = [Frame KStart f p] /\ ((starter < p)%nat -> l_state s = AInitialized);
  i_nested : forall f p, Frame KInit f p ∈ l_stack s -> l_state s = AInitialized -> l_ireq s = None;
  i_once : (cnt is_initok ev <= 1)%nat /\ (rank (l_state s) <= 2 -> cnt is_initok ev = 0%nat);
  i_ireq : forall r, l_ireq s = Some r -> EInitMsg r ∈ ev;
  i_sreq : forall r, l_sreq s = Some r -> EShutMsg r ∈ ev;
  i_shuts : (cnt is_shutok ev + (match l_sreq s with Some _ => 1 | None => 0 end) <= cnt is_shutmsg ev)%nat;
  i_reason : match l_reason s with None => forall r, EAssign r ∉ ev | Some r => EAssign r ∈ ev end
}.

Lemma linv_init : linv linit [].
Proof.
  split; cbn; try done; try (intros; by apply not_elem_of_nil || (by match goal with H : _ ∈ [] |- _ => apply elem_of_nil in H end)).
  - constructor.
  - lia.
Qed.

Lemma scan_some w l sk p : scan w l = (sk, Some p) -> exists l2, l = sk ++ p :: l2 /\ p ∈ w /\ forall q, q ∈ sk -> q ∉ w.
Proof.
  revert sk. induction l as [|x l IH]; intros sk H; [done|]. cbn in H. destruct (decide (x ∈ w)) as [Hx|Hx].
  - inversion H; subst. exists l. split; [done|]. split; [done|]. intros q Hq. by apply elem_of_nil in Hq.
  - destruct (scan w l) as [sk' q']. inversion H; subst. destruct (IH sk' eq_refl) as (l2 & -> & Hp & Hsk).
    exists l2. split; [done|]. split; [done|]. intros q Hq. apply elem_of_cons in Hq as [->|Hq]; [done|auto].
Qed.
Lemma scan_none w l sk : scan w l = (sk, None) -> sk = l /\ forall q, q ∈ l -> q ∉ w.
Proof.
  revert sk. induction l as [|x l IH]; intros sk H; cbn in H.
  - inversion H. split; [done|]. intros q Hq. by apply elem_of_nil in Hq.
  - destruct (decide (x ∈ w)) as [Hx|Hx]; [done|]. destruct (scan w l) as [sk' q']. inversion H; subst.
    destruct (IH sk' eq_refl) as [-> Hs]. split; [done|]. intros q Hq. apply elem_of_cons in Hq as [->|Hq]; [done|auto].
Qed.

(** ** Orders *)
Record rest (k : kind) (f : N) (l : list nat) (ev : list levent) : Prop := {
  r_lt : forall q, q ∈ l -> (q < n)%nat;
  r_all : forall q, (q < n)%nat -> q ∈ l \/ passed k f q ev;
  r_ord : forall l1 p l2, l = l1 ++ p :: l2 -> forall q, q ∈ p :: l2 -> ~ earlier n k q p;
  r_no : forall q, EVote k f q false ∉ ev
}.
Lemma seq_split_at a m l1 p l2 : seq a m = l1 ++ p :: l2 -> forall q, q ∈ p :: l2 -> (p <= q)%nat.
Proof.
  revert a l1. induction m as [|m IH]; intros a l1 H; [by destruct l1|]. cbn in H. destruct l1 as [|x l1]; cbn in H; inversion H; subst.
  - intros q Hq. change (p :: seq (S p) m) with (seq p (S m)) in Hq. apply elem_of_seq in Hq. lia.
  - eauto.
Qed.
Lemma rev_seq_split_at m l1 p l2 : rev (seq 0 m) = l1 ++ p :: l2 -> forall q, q ∈ p :: l2 -> (q <= p)%nat.
Proof.
  intros H q Hq. assert (H' : seq 0 m = (rev l2 ++ [p]) ++ rev l1).
  { rewrite <-(rev_involutive (seq 0 m)), H, rev_app_distr. cbn. by rewrite <-(assoc_L (++)). }
  clear H. revert l1 H'. induction m as [|m IH]; intros l1 H'.
  - destruct (rev l2); done.
  - rewrite seq_S in H'. cbn in H'. destruct (rev l1) as [|y r _] eqn:E using rev_ind.
    + rewrite app_nil_r in H'. apply app_inj_tail in H' as [H1 ->]. apply elem_of_cons in Hq as [->|Hq]; [lia|].
      assert (q ∈ seq 0 p). { rewrite H1. apply elem_of_list_In, in_rev. rewrite rev_involutive. by apply elem_of_list_In. }
      apply elem_of_seq in H. lia.
    + rewrite (assoc_L (++)) in H'. apply app_inj_tail in H' as [H1 ->].
      assert (l1 = y :: rev r) as ->. { rewrite <-(rev_involutive l1), E, rev_app_distr. done. }
      apply (IH (rev r)). by rewrite rev_involutive.
Qed.
Lemma rest_start k f ev : (forall x g, x ∈ ev -> eid x = Some g -> g < f) -> rest k f (todo_from_start n k) ev.
Proof.
  intros Hid. split.
  - intros q Hq. destruct k; cbn in Hq; rewrite ?elem_of_list_In, <-?in_rev, <-?elem_of_list_In in Hq; apply elem_of_seq in Hq; lia.
  - intros q Hq. left. destruct k; cbn; rewrite ?elem_of_list_In, <-?in_rev, <-?elem_of_list_In; apply elem_of_seq; lia.
  - intros l1 p l2 H q Hq He. destruct k; cbn in *.
    + apply (seq_split_at _ _ _ _ _ H) in Hq. lia.
    + apply (rev_seq_split_at _ _ _ _ H) in Hq. lia.
    + apply (rev_seq_split_at _ _ _ _ H) in Hq. lia.
  - intros q Hin. apply (Hid _ f) in Hin; [lia|done].
Qed.
Lemma rest_after k f p ev : (p < n)%nat -> (forall q, earlier n k q p -> passed k f q ev) -> (forall q, EVote k f q false ∉ ev) -> 
  rest k f (todo_after n k p) (ev ++ [EVote k f p true]).
Proof.
  intros Hp Hpa Hno. split.
  - intros q Hq. destruct k; cbn in Hq; rewrite ?elem_of_list_In, <-?in_rev, <-?elem_of_list_In in Hq; apply elem_of_seq in Hq; lia.
  - intros q Hq. destruct (Nat.lt_trichotomy q p) as [Hl|[->|Hl]].
    + destruct k; [right|left..].
      * destruct (Hpa q Hl); [left|right]; apply elem_of_app; by left.
      * cbn. rewrite elem_of_list_In, <-in_rev, <-elem_of_list_In. apply elem_of_seq. lia.
      * cbn. rewrite elem_of_list_In, <-in_rev, <-elem_of_list_In. apply elem_of_seq. lia.
    + right. left. apply elem_of_app. right. left.
    + destruct k; [left|right..].
      * apply elem_of_seq. lia.
      * destruct (Hpa q); [cbn; lia|left|right]; apply elem_of_app; by left.
      * destruct (Hpa q); [cbn; lia|left|right]; apply elem_of_app; by left.
  - intros l1 x l2 H q Hq He. destruct k; cbn in *.
    + apply (seq_split_at _ _ _ _ _ H) in Hq. lia.
    + apply (rev_seq_split_at _ _ _ _ H) in Hq. lia.
    + apply (rev_seq_split_at _ _ _ _ H) in Hq. lia.
  - intros q Hin. apply elem_of_app in Hin as [Hin|Hin]; [by apply (Hno q)|]. apply elem_of_list_singleton in Hin. done.
Qed.

(** ** Quiet extensions of the trace *)
Lemma passed_app k f q a b : passed k f q a -> passed k f q (a ++ b).
Proof. intros [H|H]; [left|right]; apply elem_of_app; by left. Qed.
Lemma wants_skips k p k' f sk b : foldl (wants_upd k p) b (ESkip k' f <$> sk) = b.
Proof. revert b. induction sk as [|x sk IH]; intros b; cbn; [done|apply IH]. Qed.
Lemma cnt_skips p k f sk : (forall k f q, p (ESkip k f q) = false) -> cnt p (ESkip k f <$> sk) = 0%nat.
Proof. intros H. induction sk as [|x sk IH]; cbn; [done|]. unfold cnt in *. cbn. by rewrite H. Qed.
Lemma skips_in k f (sk : list nat) x : x ∈ ESkip k f <$> sk -> exists q, x = ESkip k f q /\ q ∈ sk.
Proof. intros H. apply elem_of_list_fmap in H as (q & -> & Hq). by exists q. Qed.
Lemma gapp_skips ev k f sk : (forall q, q ∈ sk -> wants k q ev = false) -> gapp ev (ESkip k f <$> sk).
Proof.
  revert ev. induction sk as [|x sk IH]; intros ev H; cbn; [apply gapp_nil|]. apply gapp_cons.
  - apply H. left.
  - apply IH. intros q Hq. rewrite wants_app. cbn. apply H. by right.
Qed.

Definition quiet (x : levent) : bool :=
  match x with EReact _ _ _ | EInitOk _ _ | EShutOk _ _ | EAssign _ | EVote _ _ _ false => false | _ => true end.
Lemma linv_quiet s ev x : linv s ev -> quiet x = true -> (forall f, eid x = Some f -> f < l_fid s) -> linv s (ev ++ [x]).
Proof.
  intros [] Hq Hf. split; try done.
  - intros k p. rewrite wants_app, (i_want0 k p). destruct x; cbn; done.
  - intros y f Hy Ey. apply elem_of_app in Hy as [Hy|Hy]; [eauto|]. apply elem_of_list_singleton in Hy as ->. auto.
  - intros k f p Hin. destruct (i_frame0 _ _ _ Hin) as (H1 & H2 & H3 & H4 & H5). split_and!; try done.
    + apply elem_of_app; by left.
    + intros q Hq'. by apply passed_app, H4.
    + intros q Hin'. apply elem_of_app in Hin' as [Hin'|Hin']; [by apply (H5 q)|]. apply elem_of_list_singleton in Hin' as <-. done.
  - rewrite cnt_app. destruct i_once0. replace (cnt is_initok [x]) with 0%nat by (destruct x; cbn in *; done). rewrite Nat.add_0_r. done.
  - intros r Hr. apply elem_of_app; left; auto.
  - intros r Hr. apply elem_of_app; left; auto.
  - rewrite !cnt_app. replace (cnt is_shutok [x]) with 0%nat by (destruct x; cbn in *; done). lia.
  - destruct (l_reason s).
    + apply elem_of_app; by left.
    + intros r Hin. apply elem_of_app in Hin as [Hin|Hin]; [by apply (i_reason0 r)|]. apply elem_of_list_singleton in Hin as <-. done.
Qed.
Lemma linv_quiets s ev e : linv s ev -> (forall x, x ∈ e -> quiet x = true) -> (forall x f, x ∈ e -> eid x = Some f -> f < l_fid s) -> linv s (ev ++ e).
Proof.
  revert ev. induction e as [|x e IH]; intros ev HI Hq Hf; [by rewrite app_nil_r|].
  change (x :: e) with ([x] ++ e). rewrite (assoc_L (++)). apply IH.
  - apply linv_quiet; [done| |]; [apply Hq; left|]. intros f. apply Hf. left.
  - intros y Hy. apply Hq. by right.
  - intros y f Hy. apply Hf. by right.
Qed.
Lemma linv_prog s ev p : linv s ev -> linv (set_prog s p) ev.
Proof. by intros []. Qed.
Lemma linv_deact s ev p : linv s ev -> linv (set_deact s p) ev.
Proof. by intros []. Qed.
Lemma linv_fid s ev : linv s ev -> linv (set_fid s (l_fid s + 1)) ev.
Proof.
  intros []. split; cbn; try done.
  - intros x f Hx Ex. specialize (i_ids0 x f Hx Ex). lia.
  - intros k f p Hin. destruct (i_frame0 _ _ _ Hin) as (H1 & H2). split; [lia|done].
Qed.
Lemma linv_react s ev k p on : linv s ev -> linv (react s k p on) (ev ++ [EReact k p on]).
Proof.
  intros []. split; cbn; try done.
  - intros k' p'. rewrite wants_app. cbn. unfold upd. destruct (decide (k' = k)) as [->|Hk].
    + destruct (decide (k = k /\ p = p')) as [[_ ->]|Hne].
      * destruct on; split; intros H; try done; [apply elem_of_union_r, elem_of_singleton; done|].
        apply elem_of_difference in H as [_ H]. by destruct H; apply elem_of_singleton.
      * assert (p' <> p) by (intros ->; by apply Hne). rewrite <-i_want0. destruct on.
        -- rewrite elem_of_union, elem_of_singleton. naive_solver.
        -- rewrite elem_of_difference, elem_of_singleton. naive_solver.
    + destruct (decide (k = k' /\ p = p')) as [[-> _]|_]; [done|]. apply i_want0.
  - intros y f Hy Ey. apply elem_of_app in Hy as [Hy|Hy]; [eauto|]. by apply elem_of_list_singleton in Hy as ->.
  - intros k' f q Hin. destruct (i_frame0 _ _ _ Hin) as (H1 & H2 & H3 & H4 & H5). split_and!; try done.
    + apply elem_of_app; by left.
    + intros q' Hq'. by apply passed_app, H4.
    + intros q' Hin'. apply elem_of_app in Hin' as [Hin'|Hin']; [by apply (H5 q')|]. by apply elem_of_list_singleton in Hin'.
  - rewrite cnt_app. replace (cnt is_initok [_]) with 0%nat by done. rewrite Nat.add_0_r. done.
  - intros r Hr. apply elem_of_app; left; auto.
  - intros r Hr. apply elem_of_app; left; auto.
  - rewrite !cnt_app. cbn. unfold cnt in *. cbn. lia.
  - destruct (l_reason s).
    + apply elem_of_app; by left.
    + intros r Hin. apply elem_of_app in Hin as [Hin|Hin]; [by apply (i_reason0 r)|]. by apply elem_of_list_singleton in Hin.
Qed.
(** The top loop is taken off. *)
Lemma linv_pop s ev fr st : linv s ev -> l_stack s = fr :: st -> linv (set_stack s st) ev.
Proof.
  intros [] E. assert (Hsub : forall x, x ∈ st -> x ∈ l_stack s) by (intros; rewrite E; by right). split; cbn; try done.
  - intros k f p Hin. apply i_frame0. auto.
  - rewrite E in i_nodup0. by apply NoDup_cons in i_nodup0 as [_ ?].
  - intros k f p Hin. by apply (i_kind0 k f p), Hsub.
  - intros f p Hin. destruct (i_start0 _ _ (Hsub _ Hin)) as [H1 H2]. rewrite H1 in E. inversion E; subst. by apply elem_of_nil in Hin.
  - intros f p Hin. by apply (i_nested0 f p), Hsub.
Qed.
Lemma linv_vote s ev k f p : linv s ev -> f < l_fid s -> f ∉ (f_id <$> l_stack s) -> linv s (ev ++ [EVote k f p false]).
Proof.
  intros [] Hf Hnin. split; cbn; try done.
  - intros k' p'. rewrite wants_app. apply i_want0.
  - intros y g Hy Ey. apply elem_of_app in Hy as [Hy|Hy]; [eauto|]. apply elem_of_list_singleton in Hy as ->. inversion Ey; subst. done.
  - intros k' g q Hin. destruct (i_frame0 _ _ _ Hin) as (H1 & H2 & H3 & H4 & H5). split_and!; try done.
    + apply elem_of_app; by left.
    + intros q' Hq'. by apply passed_app, H4.
    + intros q' Hin'. apply elem_of_app in Hin' as [Hin'|Hin']; [by apply (H5 q')|]. apply elem_of_list_singleton in Hin'. inversion Hin'; subst.
      destruct Hnin. apply elem_of_list_fmap. by exists (Frame k f q).
  - rewrite cnt_app. replace (cnt is_initok [_]) with 0%nat by done. rewrite Nat.add_0_r. done.
  - intros r Hr. apply elem_of_app; left; auto.
  - intros r Hr. apply elem_of_app; left; auto.
  - rewrite !cnt_app. cbn. unfold cnt in *. cbn. lia.
  - destruct (l_reason s).
    + apply elem_of_app; by left.
    + intros r Hin. apply elem_of_app in Hin as [Hin|Hin]; [by apply (i_reason0 r)|]. by apply elem_of_list_singleton in Hin.
Qed.

(** A loop stops at a plugin. *)
Lemma linv_push s ev k f p : linv s ev -> f < l_fid s -> f ∉ (f_id <$> l_stack s) -> kstate k (l_state s) ->
  (p < n)%nat -> EAsk k f p ∈ ev -> (forall q, earlier n k q p -> passed k f q ev) -> (forall q, EVote k f q false ∉ ev) ->
  (k = KStart -> l_stack s = [] /\ ((starter < p)%nat -> l_state s = AInitialized)) -> 
  (forall g q, Frame KStart g q ∉ l_stack s) ->
  (k = KInit -> l_state s = AInitialized -> l_ireq s = None) ->
  linv (set_stack s (Frame k f p :: l_stack s)) ev.
Proof.
  intros [] Hf Hnin Hk Hp Hask Hpass Hno Hst Hns Hini. split; cbn; try done.
  - intros k' g q Hin. apply elem_of_cons in Hin as [E|Hin]; [inversion E; subst; done|]. by apply i_frame0.
  - apply NoDup_cons. done.
  - intros k' g q Hin. apply elem_of_cons in Hin as [E|Hin]; [inversion E; subst; done|]. by apply (i_kind0 k' g q).
  - intros g q Hin. apply elem_of_cons in Hin as [E|Hin]; [|by destruct (Hns _ _ Hin)]. inversion E; subst.
    destruct (Hst eq_refl) as [H1 H2]. by rewrite H1.
  - intros g q Hin. apply elem_of_cons in Hin as [E|Hin]; [inversion E; subst; auto|]. by apply (i_nested0 g q).
Qed.

Record ready (s : lstate) (k : kind) (f : N) (l : list nat) (ev : list levent) : Prop := {
  y_f : f < l_fid s;
  y_new : f ∉ (f_id <$> l_stack s);
  y_rest : rest k f l ev;
  y_state : kstate k (l_state s);
  y_start : k = KStart -> l_stack s = [] /\ forall p, p ∈ l -> (starter <= p)%nat -> l_state s = AInitialized;
  y_nost : forall g q, Frame KStart g q ∉ l_stack s;
  y_init : k = KInit -> l_state s = AInitialized -> l_ireq s = None
}.

Lemma walk_app o a m b r : walk o a m -> walk m b r -> walk o (a ++ b) r.
Proof.
  revert o. induction a as [|x a IH]; intros o Ha Hb; cbn in *; [by subst|].
  destruct x; try (by apply IH). destruct Ha as (H1 & H2 & H3). split_and!; [done..|]. by apply IH.
Qed.
Lemma walk_quiet o e : (forall x, x ∈ e -> match x with EState _ _ => False | _ => True end) -> walk o e o.
Proof.
  induction e as [|x e IH]; intros H; cbn; [done|]. specialize (H x (elem_of_list_here _ _)) as Hx.
  destruct x; try done; apply IH; intros y Hy; apply H; by right.
Qed.
Lemma rest_tail k f l ev x : rest k f l ev -> (forall q, x <> EVote k f q false) -> rest k f l (ev ++ [x]).
Proof.
  intros [] Hx. split; try done.
  - intros q Hq. destruct (r_all0 q Hq) as [H|H]; [by left|right; by apply passed_app].
  - intros q Hin. apply elem_of_app in Hin as [Hin|Hin]; [by apply (r_no0 q)|]. apply elem_of_list_singleton in Hin. by apply (Hx q).
Qed.

Lemma shut_frames s ev k : linv s ev -> kstate k (l_state s) -> forall k' g q, Frame k' g q ∈ l_stack s ->
  k = KShut -> k' = KShut.
Proof. intros HI Hk k' g q Hin ->. specialize (i_kind _ _ HI _ _ _ Hin). destruct k', (l_state s); cbn in *; naive_solver. Qed.

Lemma linv_init_finish s ev f r : linv s ev -> l_state s = AInitializing -> l_ireq s = Some r ->
  linv (set_state (set_ireq s None) AInitialized) (ev ++ [EInitOk f r; EState AInitializing AInitialized]).
Proof.
  intros [] Hs Hr. rewrite Hs in *. destruct i_once0 as [Ho1 Ho2]. specialize (Ho2 ltac:(cbn; lia)).
  assert (Hkk : forall k g q, Frame k g q ∈ l_stack s -> k = KInit).
  { intros k g q Hin. specialize (i_kind0 _ _ _ Hin). destruct k; cbn in i_kind0; naive_solver. }
  split; cbn; try done.
  - intros k p. rewrite wants_app. apply i_want0.
  - intros y g Hy Ey. apply elem_of_app in Hy as [Hy|Hy]; [eauto|]. rewrite !elem_of_cons, elem_of_nil in Hy. destruct Hy as [->|[->|[]]]; done.
  - intros k' g q Hin. destruct (i_frame0 _ _ _ Hin) as (H1 & H2 & H3 & H4 & H5). split_and!; try done.
    + apply elem_of_app; by left.
    + intros q' Hq'. by apply passed_app, H4.
    + intros q' Hin'. apply elem_of_app in Hin' as [Hin'|Hin']; [by apply (H5 q')|]. rewrite !elem_of_cons, elem_of_nil in Hin'. destruct Hin' as [E|[E|[]]]; done.
  - intros k g q Hin. rewrite (Hkk _ _ _ Hin). cbn. by right.
  - intros g q Hin. by specialize (Hkk _ _ _ Hin).
  - rewrite cnt_app, Ho2. cbn. split; [lia|]. intros Hlt. cbn in Hlt. lia.
  - intros x Hx. apply elem_of_app; left; auto.
  - rewrite !cnt_app. cbn. unfold cnt in *. cbn. lia.
  - destruct (l_reason s).
    + apply elem_of_app; by left.
    + intros x Hin. apply elem_of_app in Hin as [Hin|Hin]; [by apply (i_reason0 x)|]. rewrite !elem_of_cons, elem_of_nil in Hin. destruct Hin as [E|[E|[]]]; done.
Qed.
Lemma linv_shutdown_finish s ev f : linv s ev -> kstate KShut (l_state s) ->
  linv (set_state (set_sreq s None) AShutDown) (ev ++ match l_sreq s with Some r => [EShutOk f r] | None => [] end ++ [EState (l_state s) AShutDown]).
Proof.
  intros HI Hk. pose proof (fun k g q H => shut_frames _ _ _ HI Hk k g q H eq_refl) as Hkk. destruct HI.
  set (e := _ ++ [_]). assert (He : forall x, x ∈ e -> match x with EShutOk _ _ | EState _ _ => True | _ => False end).
  { intros x Hx. unfold e in Hx. apply elem_of_app in Hx as [Hx|Hx].
    - destruct (l_sreq s); [apply elem_of_list_singleton in Hx as ->; done|by apply elem_of_nil in Hx].
    - by apply elem_of_list_singleton in Hx as ->. }
  split; cbn; try done.
  - intros k p. rewrite wants_app. rewrite (i_want0 k p). unfold e. by destruct (l_sreq s).
  - intros y g Hy Ey. apply elem_of_app in Hy as [Hy|Hy]; [eauto|]. specialize (He _ Hy). by destruct y.
  - intros k' g q Hin. destruct (i_frame0 _ _ _ Hin) as (H1 & H2 & H3 & H4 & H5). split_and!; try done.
    + apply elem_of_app; by left.
    + intros q' Hq'. by apply passed_app, H4.
    + intros q' Hin'. apply elem_of_app in Hin' as [Hin'|Hin']; [by apply (H5 q')|]. by specialize (He _ Hin').
  - intros k g q Hin. rewrite (Hkk _ _ _ Hin). cbn. by right.
  - intros g q Hin. by specialize (Hkk _ _ _ Hin).
  - replace (cnt is_initok (ev ++ e)) with (cnt is_initok ev). { split; [apply i_once0|cbn; lia]. }
    rewrite cnt_app. unfold e. destruct (l_sreq s); unfold cnt; cbn; lia.
  - intros x Hx. apply elem_of_app; left; auto.
  - rewrite !cnt_app. unfold e. destruct (l_sreq s); unfold cnt in *; cbn; lia.
  - destruct (l_reason s).
    + apply elem_of_app; by left.
    + intros x Hin. apply elem_of_app in Hin as [Hin|Hin]; [by apply (i_reason0 x)|]. by specialize (He _ Hin).
Qed.

Lemma linv_start s ev f p : linv s ev -> l_stack s = [Frame KStart f p] -> l_state s = AInitialized -> (p <= starter)%nat ->
  linv (set_state s AOperational) (ev ++ [EState AInitialized AOperational]).
Proof.
  intros HI Hst Hs Hp. apply linv_quiet; [|done..]. destruct HI. split; cbn; try done.
  - intros k g q Hin. rewrite Hst in Hin. apply elem_of_list_singleton in Hin. inversion Hin; subst. by right.
  - intros g q Hin. rewrite Hst in Hin. apply elem_of_list_singleton in Hin. inversion Hin; subst. split; [done|lia].
  - split; [apply i_once0|]. cbn. lia.
Qed.

Lemma rest_some k f sk p l2 ev : rest k f (sk ++ p :: l2) ev -> (forall q, q ∈ sk -> wants k q ev = false) -> wants k p ev = true ->
  okev (ev ++ (ESkip k f <$> sk)) (EAsk k f p).
Proof.
  intros [] Hsk Hp. cbn. split_and!.
  - rewrite wants_app, wants_skips. done.
  - apply r_lt0. rewrite elem_of_app, elem_of_cons. auto.
  - intros q He. assert (Hq : (q < n)%nat).
    { assert (p < n)%nat by (apply r_lt0; rewrite elem_of_app, elem_of_cons; auto). destruct k; cbn in He; lia. }
    destruct (r_all0 q Hq) as [H|H]; [|by apply passed_app]. apply elem_of_app in H as [H|H].
    + right. apply elem_of_app. right. apply elem_of_list_fmap. by exists q.
    + by destruct (r_ord0 sk p l2 eq_refl q H).
  - intros q Hin. apply elem_of_app in Hin as [Hin|Hin]; [by apply (r_no0 q)|]. apply skips_in in Hin as (? & ? & _). done.
Qed.
Lemma rest_none k f l ev : rest k f l ev -> okev (ev ++ (ESkip k f <$> l)) (EFinish k f).
Proof.
  intros []. cbn. split.
  - intros q Hq. destruct (r_all0 q Hq) as [H|H]; [|by apply passed_app].
    right. apply elem_of_app. right. apply elem_of_list_fmap. by exists q.
  - intros q Hin. apply elem_of_app in Hin as [Hin|Hin]; [by apply (r_no0 q)|]. apply skips_in in Hin as (? & ? & _). done.
Qed.

Lemma loop_ok s ev k f l s' e : linv s ev -> ready s k f l ev -> loop s k f l = Ok (s', e) ->
  gapp ev e /\ linv s' (ev ++ e) /\ walk (l_state s) e (l_state s').
Proof.
  intros HI HR H. destruct HR as [Hf Hnew Hrest Hks Hst Hns Hini]. unfold LifeModel.loop in H.
  destruct (scan (l_want s k) l) as [sk q] eqn:Es.
  assert (Hskq : forall q, q ∈ sk -> q ∉ l_want s k).
  { destruct q as [p|]; [destruct (scan_some _ _ _ _ Es) as (_ & _ & _ & ?); done|].
    destruct (scan_none _ _ _ Es) as [-> ?]. done. }
  assert (Hsk : forall q, q ∈ sk -> wants k q ev = false).
  { intros x Hx. specialize (Hskq x Hx). rewrite (i_want _ _ HI) in Hskq. by destruct (wants k x ev). }
  assert (HgS : gapp ev (ESkip k f <$> sk)) by by apply gapp_skips.
  assert (HIS : linv s (ev ++ (ESkip k f <$> sk))).
  { apply linv_quiets; [done| |]; intros x; [intros Hx|intros g Hx Ex]; apply skips_in in Hx as (? & -> & _); [done|]. by inversion Ex; subst. }
  assert (Hwk : forall o, walk o (ESkip k f <$> sk) o).
  { intros o. apply walk_quiet. intros x Hx. by apply skips_in in Hx as (? & -> & _). }
  destruct q as [p|].
  - destruct (scan_some _ _ _ _ Es) as (l2 & -> & Hp & _).
    assert (Hok : okev (ev ++ (ESkip k f <$> sk)) (EAsk k f p)).
    { apply (rest_some _ _ _ _ l2); [done..|]. by apply (i_want _ _ HI). }
    assert (HIA : linv (set_stack s (Frame k f p :: l_stack s)) (ev ++ (ESkip k f <$> sk) ++ [EAsk k f p])).
    { rewrite (assoc_L (++)). destruct Hok as (_ & Hlt & Hpa & Hno). apply linv_push.
      - apply linv_quiet; [done|done|]. intros g Eg. by inversion Eg; subst.
      - done.
      - done.
      - done.
      - done.
      - apply elem_of_app. right. left.
      - intros q Hq. by apply passed_app, Hpa.
      - intros q Hin. apply elem_of_app in Hin as [Hin|Hin]; [by apply (Hno q)|]. by apply elem_of_list_singleton in Hin.
      - intros ->. destruct (Hst eq_refl) as [H1 H2]. split; [done|]. intros Hl. apply (H2 p); [|lia]. rewrite elem_of_app, elem_of_cons. auto.
      - done.
      - done. }
    destruct (decide (k = KStart /\ p = starter)) as [[-> ->]|Hne]; inversion H; subst s' e; clear H.
    + destruct (Hst eq_refl) as [Hnil Hs]. specialize (Hs starter ltac:(rewrite elem_of_app, elem_of_cons; auto) ltac:(lia)).
      rewrite Hs. replace ((ESkip KStart f <$> sk) ++ [EAsk KStart f starter; EState AInitialized AOperational])
        with (((ESkip KStart f <$> sk) ++ [EAsk KStart f starter]) ++ [EState AInitialized AOperational]) by by rewrite <-(assoc_L (++)).
      split_and!.
      * apply gapp_app; [by apply gapp_app, gapp_one|]. apply gapp_one. cbn. rewrite (assoc_L (++)). by eexists _, _, _.
      * rewrite (assoc_L (++)). apply (linv_start (set_stack s (Frame KStart f starter :: l_stack s)) _ f starter); cbn; [done|by rewrite Hnil|done|lia].
      * apply (walk_app _ _ AInitialized); [apply (walk_app _ _ AInitialized); [apply Hwk|done]|]. cbn. done.
    + split_and!; [by apply gapp_app, gapp_one|done|]. apply (walk_app _ _ (l_state s)); [apply Hwk|done].
  - destruct (scan_none _ _ _ Es) as [-> _].
    assert (Hok := rest_none _ _ _ _ Hrest).
    set (s0 := set_prog s _) in H.
    assert (HI0 : linv s0 (ev ++ (ESkip k f <$> l) ++ [EFinish k f])).
    { rewrite (assoc_L (++)). apply linv_quiet; [by apply linv_prog|done|]. intros g Eg. by inversion Eg; subst. }
    assert (Hg0 : gapp ev ((ESkip k f <$> l) ++ [EFinish k f])) by by apply gapp_app, gapp_one.
    destruct (finish s0 k f) as [[s1 e1]| |] eqn:Ef; cbn in H; [|done..]. inversion H; subst s1 e; clear H.
    replace ((ESkip k f <$> l) ++ EFinish k f :: e1) with (((ESkip k f <$> l) ++ [EFinish k f]) ++ e1) by by rewrite <-(assoc_L (++)).
    assert (Hwk0 : walk (l_state s) ((ESkip k f <$> l) ++ [EFinish k f]) (l_state s)) by (apply (walk_app _ _ (l_state s)); [apply Hwk|done]).
    destruct k; cbn in Ef.
    + unfold init_finish in Ef. cbn in Ef. destruct (l_ireq s) as [r|] eqn:Er; [|done].
      assert (Hs : l_state s = AInitializing). { destruct Hks as [?|Hks]; [done|]. by specialize (Hini eq_refl Hks). }
      rewrite Hs in *. inversion Ef; subst s' e1; clear Ef. split_and!.
      * apply gapp_app; [done|]. apply gapp_cons; [|apply gapp_one].
        -- cbn. split_and!.
           ++ rewrite (assoc_L (++)). by eexists.
           ++ apply (i_ireq _ _ HI0). done.
           ++ apply (i_once _ _ HI0). cbn. rewrite Hs. cbn. lia.
        -- cbn. by eexists _, _, _.
      * rewrite (assoc_L (++)). by apply (linv_init_finish s0).
      * apply (walk_app _ _ AInitializing); [done|]. cbn. done.
    + unfold shutdown_finish in Ef. cbn in Ef. destruct (bool_decide (l_deact s = ∅)); [|done]. inversion Ef; subst s' e1; clear Ef. split_and!.
      * apply gapp_app; [done|]. destruct (l_sreq s) as [r|] eqn:Er; cbn.
        -- apply gapp_cons; [|apply gapp_one].
           ++ cbn. split_and!.
              ** rewrite (assoc_L (++)). by eexists.
              ** apply (i_sreq _ _ HI0). done.
              ** pose proof (i_shuts _ _ HI0) as Hc. cbn in Hc. rewrite Er in Hc. lia.
           ++ cbn. eexists (ev ++ (ESkip KShut f <$> l)), f, [EShutOk f r]. split; [by rewrite <-!(assoc_L (++))|]. right. by exists r.
        -- apply gapp_one. cbn. eexists (ev ++ (ESkip KShut f <$> l)), f, []. split; [by rewrite <-!(assoc_L (++))|]. by left.
      * rewrite (assoc_L (++)). by apply (linv_shutdown_finish s0).
      * apply (walk_app _ _ (l_state s)); [done|]. cbn in Hks. destruct (l_sreq s); cbn; split_and!; try done; destruct Hks as [-> | ->]; done.
    + inversion Ef; subst. rewrite !app_nil_r. done.
Qed.

Lemma begin_ok s ev k s' e : linv s ev -> kstate k (l_state s) -> (k = KInit -> l_state s = AInitializing) -> (k = KStart -> l_stack s = [] /\ l_state s = AInitialized) ->
  begin n starter s k = Ok (s', e) -> gapp ev e /\ linv s' (ev ++ e) /\ walk (l_state s) e (l_state s').
Proof.
  intros HI Hk Hi Hs H. unfold begin in H. set (s1 := set_prog _ _) in H.
  destruct (LifeModel.loop starter s1 k (l_fid s) (todo_from_start n k)) as [[s2 e2]| |] eqn:El; cbn in H; [|done..]. inversion H; subst s' e; clear H.
  assert (HI1 : linv s1 (ev ++ [ELoop k (l_fid s)])).
  { apply linv_quiet; [by apply linv_prog, linv_fid|done|]. intros f Ef. inversion Ef; subst. cbn. lia. }
  destruct (loop_ok _ _ _ _ _ _ _ HI1 ltac:(split) El) as (H1 & H2 & H3) || destruct (fun R => loop_ok _ _ _ _ _ _ _ HI1 R El) as (H1 & H2 & H3).
  - split; cbn.
    + lia.
    + intros Hin. apply elem_of_list_fmap in Hin as ([k' g q] & E & Hin). cbn in E. destruct (i_frame _ _ HI _ _ _ Hin) as [? _]. lia.
    + apply rest_tail; [|done]. apply rest_start. intros x g Hx Ex. by apply (i_ids _ _ HI x).
    + done.
    + intros ->. destruct (Hs eq_refl) as [-> ->]. done.
    + intros g q Hin. destruct k.
      * specialize (i_kind _ _ HI _ _ _ Hin) as HH. rewrite (Hi eq_refl) in HH. cbn in HH. by destruct HH.
      * specialize (i_kind _ _ HI _ _ _ Hin) as HH. destruct HH as [HH|HH], Hk as [Hk|Hk]; rewrite HH in Hk; done.
      * destruct (Hs eq_refl) as [Hn _]. rewrite Hn in Hin. by apply elem_of_nil in Hin.
    + intros ->. by rewrite Hi.
  - rewrite <-(assoc_L (++)) in H2. split_and!; [|done|done]. apply gapp_cons; [done|done].
Qed.

Lemma vote_ok s ev b s' e : linv s ev -> vote n starter s b = Ok (s', e) ->
  gapp ev e /\ linv s' (ev ++ e) /\ walk (l_state s) e (l_state s').
Proof.
  intros HI H. unfold vote in H. destruct (l_stack s) as [|[k f p] st] eqn:Est.
  { inversion H; subst. rewrite app_nil_r. split_and!; [apply gapp_nil|done..]. }
  assert (Hin : Frame k f p ∈ l_stack s) by (rewrite Est; left).
  assert (Hin' : forall x, x ∈ st -> x ∈ l_stack s) by (intros; rewrite Est; by right).
  destruct (i_frame _ _ HI _ _ _ Hin) as (Hf & Hp & Hask & Hpa & Hno).
  assert (Hfn : f ∉ (f_id <$> st)).
  { pose proof (i_nodup _ _ HI) as Hnd. rewrite Est in Hnd. cbn in Hnd. by apply NoDup_cons in Hnd as [? _]. }
  assert (HI0 := linv_pop _ _ _ _ HI Est).
  set (b' := b || _) in H. destruct b' eqn:Eb.
  - set (s0 := react (set_stack s st) k p false) in H. 
    destruct (LifeModel.loop starter s0 k f (todo_after n k p)) as [[s2 e2]| |] eqn:El; cbn in H; [|done..]. inversion H; subst s' e; clear H.
    assert (HI1 : linv s0 ((ev ++ [EVote k f p true]) ++ [EReact k p false])).
    { apply linv_react. apply linv_quiet; [done|done|]. intros g Eg. by inversion Eg; subst. }
    destruct (fun R => loop_ok _ _ _ _ _ _ _ HI1 R El) as (H1 & H2 & H3).
    + split; cbn.
      * done.
      * done.
      * apply rest_tail; [|done]. by apply rest_after.
      * by apply (i_kind _ _ HI _ _ _ Hin).
      * intros ->. destruct (i_start _ _ HI _ _ Hin) as [H1 H2]. rewrite H1 in Est. inversion Est. split; [done|].
        intros q Hq Hle. apply H2. cbn in Hq. rewrite elem_of_list_In, <-in_rev, <-elem_of_list_In in Hq. apply elem_of_seq in Hq. lia.
      * intros g q Hg. destruct (i_start _ _ HI _ _ (Hin' _ Hg)) as [H1 _]. rewrite H1 in Est. inversion Est; subst. by apply elem_of_nil in Hg.
      * intros -> Hs. by apply (i_nested _ _ HI f p).
    + rewrite <-!(assoc_L (++)) in H2. cbn in H2. split_and!; [|done|done].
      apply gapp_cons; [done|]. apply gapp_cons; done.
  - inversion H; subst s' e; clear H. split_and!.
    + apply gapp_one. done.
    + apply linv_prog. apply linv_vote; done.
    + done.
Qed.

Lemma linv_sstart s ev : linv s ev -> l_stack s = [] -> linv (set_state s AShuttingDown) ev.
Proof.
  intros [] Hn. split; cbn; try done; try (rewrite Hn; intros; by match goal with H : _ ∈ [] |- _ => apply elem_of_nil in H end).
  split; [apply i_once0|cbn; lia].
Qed.
Lemma shutdown_start_ok s ev s' e : linv s ev -> l_stack s = [] -> shutdown_start spawned escalate auto ident s = (s', e) ->
  gapp ev e /\ linv s' (ev ++ e) /\ (rank (l_state s) < 5 -> walk (l_state s) e (l_state s')) /\ l_state s' = AShuttingDown.
Proof.
  intros HI Hn H. unfold shutdown_start in H. set (e1 := if spawned then _ else _) in H. injection H as <- <-.
  assert (He : forall x, x ∈ e1 -> match x with EEscalate _ | EAutoDown _ => True | _ => False end).
  { intros x Hx. unfold e1 in Hx. destruct spawned; [by apply elem_of_nil in Hx|]. apply elem_of_app in Hx as [Hx|Hx].
    - destruct (l_reason s); [|by apply elem_of_nil in Hx]. destruct (_ && _); [|by apply elem_of_nil in Hx]. by apply elem_of_list_singleton in Hx as ->.
    - destruct auto; [|by apply elem_of_nil in Hx]. by apply elem_of_list_singleton in Hx as ->. }
  clearbody e1. split_and!.
  - intros a x b E. destruct a as [|y a]; cbn in E; injection E as Ex Et; [by rewrite <-Ex|].
    assert (x ∈ e1) as Hx by (rewrite Et, elem_of_app, elem_of_cons; auto). specialize (He x Hx). by destruct x.
  - change (EState (l_state s) AShuttingDown :: e1) with ([EState (l_state s) AShuttingDown] ++ e1). rewrite (assoc_L (++)). apply linv_quiets.
    + apply linv_quiet; [by apply linv_sstart|done..].
    + intros x Hx. specialize (He x Hx). by destruct x.
    + intros x f Hx Ex. specialize (He x Hx). by destruct x.
  - intros Hr. cbn. split_and!; [done| |].
    + destruct (l_state s); cbn in *; try done; lia.
    + apply walk_quiet. intros x Hx. specialize (He x Hx). by destruct x.
  - done.
Qed.
Lemma assign_ok s ev r s' e : linv s ev -> assign_reason s r = (s', e) -> gapp ev e /\ linv s' (ev ++ e) /\ l_state s' = l_state s /\ l_stack s' = l_stack s /\ (forall o, walk o e o).
Proof.
  intros HI H. unfold assign_reason in H. destruct (l_reason s) as [x|] eqn:Er; [|destruct r as [x|]].
  - injection H as <- <-. rewrite app_nil_r. split_and!; try done. apply gapp_nil.
  - injection H as <- <-. split_and!; try done.
    + apply gapp_one. cbn. pose proof (i_reason _ _ HI) as Hr. by rewrite Er in Hr.
    + destruct HI. split; cbn; try done.
      * intros k' p'. rewrite wants_app. apply i_want0.
      * intros y f Hy Ey. apply elem_of_app in Hy as [Hy|Hy]; [eauto|]. by apply elem_of_list_singleton in Hy as ->.
      * intros k' f q Hin. destruct (i_frame0 _ _ _ Hin) as (H1 & H2 & H3 & H4 & H5). split_and!; try done.
        -- apply elem_of_app; by left.
        -- intros q' Hq'. by apply passed_app, H4.
        -- intros q' Hin'. apply elem_of_app in Hin' as [Hin'|Hin']; [by apply (H5 q')|]. by apply elem_of_list_singleton in Hin'.
      * rewrite cnt_app. replace (cnt is_initok [_]) with 0%nat by done. rewrite Nat.add_0_r. done.
      * intros r Hr. apply elem_of_app; left; auto.
      * intros r Hr. apply elem_of_app; left; auto.
      * rewrite !cnt_app. unfold cnt in *. cbn. lia.
      * apply elem_of_app. right. left.
  - injection H as <- <-. rewrite app_nil_r. split_and!; try done. apply gapp_nil.
Qed.

Lemma linv_sreq s ev r : linv s ev -> linv (set_sreq s (Some r)) (ev ++ [EShutMsg r]).
Proof.
  intros HI. apply (linv_quiet _ _ (EShutMsg r)) in HI as HI2; [|done..]. pose proof (i_shuts _ _ HI) as Hc. destruct HI2. split; cbn; try done.
  - intros x [= ->]. apply elem_of_app. right. left.
  - rewrite !cnt_app. unfold cnt in *. cbn. destruct (l_sreq s); lia.
Qed.
Lemma linv_ireq s ev r : linv s ev -> l_stack s = [] -> linv (set_ireq s (Some r)) (ev ++ [EInitMsg r]).
Proof.
  intros HI Hn. apply (linv_quiet _ _ (EInitMsg r)) in HI as HI2; [|done..]. destruct HI2. split; cbn; try done.
  - rewrite Hn. intros f p Hin. by apply elem_of_nil in Hin.
  - intros x [= ->]. apply elem_of_app. right. left.
Qed.

Lemma idle_nil s : idle s = true -> l_stack s = [].
Proof. unfold idle. by destruct (l_stack s). Qed.

Lemma step_ok s ev o s' e : linv s ev -> step s o = Ok (s', e) ->
  gapp ev e /\ linv s' (ev ++ e) /\ (life_ok s o -> walk (l_state s) e (l_state s')).
Proof.
  intros HI H.
  assert (Hnop : Ok (s, []) = Ok (s', e) -> gapp ev e /\ linv s' (ev ++ e) /\ (life_ok s o -> walk (l_state s) e (l_state s'))).
  { intros [= <- <-]. rewrite app_nil_r. split_and!; [apply gapp_nil|done..]. }
  destruct o; cbn -[shutdown_start assign_reason shutdown_continue init_continue begin vote react] in H.
  - case_bool_decide as Hs; [|by apply Hnop]. inversion H; subst; clear H. split_and!.
    + by apply gapp_one.
    + apply linv_quiet; [|done..]. destruct HI. split; cbn; try done.
      * intros k f p Hin. specialize (i_kind0 _ _ _ Hin). rewrite Hs in i_kind0. destruct k; cbn in i_kind0; naive_solver.
      * intros f p Hin. specialize (i_kind0 _ _ _ Hin). rewrite Hs in i_kind0. cbn in i_kind0; naive_solver.
      * split; [apply i_once0|]. intros _. apply i_once0. rewrite Hs. cbn. lia.
    + intros _. by rewrite Hs.
  - inversion H; subst; clear H. split_and!; [by apply gapp_one|by apply linv_react|done].
  - destruct (idle s) eqn:Ei; [|by apply Hnop]. apply idle_nil in Ei. case_bool_decide as Hs.
    + destruct (init_continue n starter (set_ireq s (Some r))) as [[s2 e2]| |] eqn:Ec; cbn in H; [|done..]. inversion H; subst; clear H.
      unfold init_continue in Ec. destruct (_ && _) eqn:Eg; [|done].
      destruct (fun A B C D => begin_ok _ (ev ++ [EInitMsg r]) KInit _ _ A B C D Ec) as (H1 & H2 & H3); try done.
      * by apply linv_ireq.
      * cbn. by left.
      * rewrite <-(assoc_L (++)) in H2. split_and!; [by apply gapp_cons|done|done].
    + inversion H; subst; clear H. split_and!; [by apply gapp_one|by apply linv_ireq|done].
  - destruct (l_ireq s) as [r|] eqn:Er; [|by apply Hnop]. inversion H; subst; clear H. split_and!; [by apply gapp_one| |done].
    apply linv_quiet; [|done..]. destruct HI. split; cbn; done.
  - destruct k; [| |by apply Hnop].
    + unfold init_continue in H. destruct (_ && _) eqn:Eg; [|done]. apply andb_prop in Eg as [Eg _]. apply bool_decide_eq_true in Eg.
      destruct (begin_ok _ ev KInit _ _ HI ltac:(cbn; by left) ltac:(done) ltac:(done) H) as (H1 & H2 & H3). done.
    + unfold shutdown_continue in H. destruct (bool_decide _) eqn:Eg; [|done]. apply bool_decide_eq_true in Eg.
      destruct (begin_ok _ ev KShut _ _ HI ltac:(cbn; by left) ltac:(done) ltac:(done) H) as (H1 & H2 & H3). done.
  - destruct (vote_ok _ _ _ _ _ HI H) as (H1 & H2 & H3). done.
  - destruct (idle s) eqn:Ei; [|by apply Hnop]. apply idle_nil in Ei.
    destruct (assign_reason (set_sreq s (Some r)) reason) as [s1 e1] eqn:Ea. destruct (shutdown_start spawned escalate auto ident s1) as [s2 e2] eqn:Es.
    destruct (shutdown_continue n starter s2) as [[s3 e3]| |] eqn:Ec; cbn in H; [|done..]. inversion H; subst; clear H.
    pose proof (linv_sreq _ _ r HI) as HI0.
    destruct (assign_ok _ _ _ _ _ HI0 Ea) as (A1 & A2 & A3 & A4 & A5). cbn in A3, A4.
    destruct (shutdown_start_ok _ _ _ _ A2 ltac:(congruence) Es) as (B1 & B2 & B3 & B4).
    unfold shutdown_continue in Ec. destruct (bool_decide _) eqn:Eg; [|done].
    destruct (begin_ok _ _ KShut _ _ B2 ltac:(cbn; by left) ltac:(done) ltac:(done) Ec) as (C1 & C2 & C3).
    rewrite <-!(assoc_L (++)) in C2. cbn in C2. split_and!.
    + apply gapp_cons; [done|]. apply gapp_app; [done|]. by apply gapp_app.
    + done.
    + intros Hg. cbn. apply (walk_app _ _ (l_state s)); [apply A5|]. apply (walk_app _ _ (l_state s2)); [|done]. rewrite <-A3. apply B3. by rewrite A3.
  - destruct (idle s) eqn:Ei; [|by apply Hnop]. apply idle_nil in Ei. case_bool_decide as Hs; [by apply Hnop|].
    destruct (assign_reason s reason) as [s1 e1] eqn:Ea. destruct (shutdown_start spawned escalate auto ident s1) as [s2 e2] eqn:Es. inversion H; subst; clear H.
    destruct (assign_ok _ _ _ _ _ HI Ea) as (A1 & A2 & A3 & A4 & A5).
    destruct (shutdown_start_ok _ _ _ _ A2 ltac:(congruence) Es) as (B1 & B2 & B3 & B4).
    rewrite <-!(assoc_L (++)) in B2. split_and!.
    + by apply gapp_app.
    + done.
    + intros Hg. apply (walk_app _ _ (l_state s)); [apply A5|]. rewrite <-A3. apply B3. rewrite A3. cbn in Hg. destruct (l_state s); cbn in *; lia || done.
  - destruct (idle s) eqn:Ei; [|by apply Hnop]. apply idle_nil in Ei. case_bool_decide as Hs; [|by apply Hnop].
    destruct (begin_ok _ ev KStart _ _ HI ltac:(cbn; by left) ltac:(done) ltac:(done) H) as (H1 & H2 & H3). done.
  - inversion H; subst; clear H. rewrite app_nil_r. split_and!; [apply gapp_nil|by apply linv_deact|done].
Qed.

Lemma reach_linv ops s ev : run step linit ops = Ok (s, ev) -> linv s ev /\ gapp [] ev.
Proof.
  intros H. assert (HH : forall ops s0 ev0 s e, linv s0 ev0 -> gapp [] ev0 -> run step s0 ops = Ok (s, e) -> linv s (ev0 ++ e) /\ gapp [] (ev0 ++ e)).
  { clear. intros ops. induction ops as [|o ops IH]; intros s0 ev0 s e HI HG Hr; cbn in Hr.
    - inversion Hr; subst. by rewrite app_nil_r.
    - destruct (step s0 o) as [[s1 e1]| |] eqn:Es; cbn in Hr; [|done..]. destruct (run step s1 ops) as [[s2 e2]| |] eqn:Er; cbn in Hr; [|done..].
      inversion Hr; subst. destruct (step_ok _ _ _ _ _ HI Es) as (H1 & H2 & _). rewrite (assoc_L (++)). eapply IH; eauto. by apply gapp_app. }
  by apply (HH ops linit [] s ev linv_init (gapp_nil [])).
Qed.
Lemma reach_walk ops s ev : run step linit ops = Ok (s, ev) -> guarded step life_ok linit ops -> walk ANew ev (l_state s).
Proof.
  intros H Hg. assert (HH : forall ops s0 ev0 s e, linv s0 ev0 -> guarded step life_ok s0 ops -> run step s0 ops = Ok (s, e) -> walk (l_state s0) e (l_state s)).
  { clear. intros ops. induction ops as [|o ops IH]; intros s0 ev0 s e HI HG Hr; cbn in Hr.
    - by inversion Hr; subst.
    - destruct HG as [Hok HG]. destruct (step s0 o) as [[s1 e1]| |] eqn:Es; cbn in Hr; [|done..]. destruct (run step s1 ops) as [[s2 e2]| |] eqn:Er; cbn in Hr; [|done..].
      inversion Hr; subst. destruct (step_ok _ _ _ _ _ HI Es) as (H1 & H2 & H3). apply (walk_app _ _ (l_state s1)); [auto|]. eapply IH; eauto. }
  by apply (HH ops linit [] s ev linv_init Hg).
Qed.
End proofs.
