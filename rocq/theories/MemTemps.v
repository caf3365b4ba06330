(** The functions leave nothing behind in their variables. *)
From stdpp Require Import base list gmap.
From Verif Require Import Base MemModel MemSpec MemInv MemProofs.
Open Scope N_scope.

(** How many entries are in a place. *)
Fixpoint size (c : cell) (l : list entry) : nat :=
  match l with [] => 0 | e :: l => (if bool_decide (e.1 = c) then 1 else 0) + size c l end.
Lemma size_app c l1 l2 : size c (l1 ++ l2) = (size c l1 + size c l2)%nat.
Proof. induction l1 as [|e l1 IH]; simpl; [done|]. rewrite IH. lia. Qed.
Lemma size_perm c l l' : l ≡ₚ l' -> size c l = size c l'.
Proof. induction 1; simpl; lia. Qed.
Lemma size_zero c l : size c l = 0%nat -> forall p, (c, p) ∉ l.
Proof.
  induction l as [|e l IH]; simpl; [intros _ p; apply not_elem_of_nil|]. case_bool_decide as He; [lia|].
  intros H p. apply not_elem_of_cons. split; [by intros <- | by apply IH].
Qed.
(** Variables of a thread but the message being processed. *)
Inductive temp := TVar (x : N) | TRaw (x : N).
Global Instance temp_eq : EqDecision temp. Proof. solve_decision. Defined.
Definition temp_of (t : N) (c : cell) : option temp :=
  match c with
  | CRaw u x => if u =? t then Some (TRaw x) else None
  | CVar u x => if u =? t then if x =? 1 then None else Some (TVar x) else None
  | _ => None
  end.
Lemma temp_owner t c k : temp_of t c = Some k -> MemModel.owner c = None.
Proof. by destruct c. Qed.

(** Which variables are in use after an operation; [None]: one would be used twice. *)
Definition into (x : option temp) (k : list temp) : option (list temp) :=
  match x with Some x => if bool_decide (x ∈ k) then None else Some (x :: k) | None => Some k end.
Definition out (x : option temp) (k : list temp) : list temp :=
  match x with Some x => filter (fun d => d <> x) k | None => k end.
Definition tv (x : N) : option temp := if x =? 1 then None else Some (TVar x).
Definition eff (t : N) (i : instr) (k : list temp) : option (list temp) :=
  match i with
  | INew x | IMake x _ _ _ | ICopy _ x => into (tv x) k
  | IDetach c _ r => into (Some (TRaw r)) (out (temp_of t c) k)
  | IAttach r x _ => into (tv x) (out (Some (TRaw r)) k)
  | IMove x c _ => match c with CVar _ _ | CRaw _ _ => None | _ => Some (out (tv x) k) end
  | IPush r _ => Some (out (Some (TRaw r)) k)
  | IFetch _ r => into (Some (TRaw r)) k
  | IReset x => Some (out (tv x) k)
  | _ => Some k
  end.
Fixpoint after (t : N) (p : list instr) (k : list temp) : option (list temp) :=
  match p with [] => Some k | i :: p => match eff t i k with Some k' => after t p k' | None => None end end.
Lemma body_clean t f : after t (body t f) [] = Some [].
Proof. destruct f; unfold body, after, eff, temp_of; rewrite ?N.eqb_refl; vm_compute; reflexivity. Qed.
Lemma body_ok t f : forallb ok_instr (body t f) = true.
Proof. destruct f; reflexivity. Qed.

(** [k] bounds what is in the variables of [t]. *)
Definition bound (l : list entry) (t : N) (k : list temp) : Prop :=
  forall c x, temp_of t c = Some x -> (size c l <= if bool_decide (x ∈ k) then 1 else 0)%nat.
Definition solid (l : list entry) : Prop := forall c, (c, None) ∈ l -> MemModel.owner c <> None.

Lemma bound_less l l' t k : bound l t k -> (forall c, temp_of t c <> None -> (size c l' <= size c l)%nat) -> bound l' t k.
Proof. intros Hb Hs c x Hx. etrans; [apply Hs; congruence | by apply Hb]. Qed.
Lemma bound_out l l' t k c x : bound l t k -> temp_of t c = x ->
  (forall d, temp_of t d <> None -> (size d l' <= size d l)%nat) -> (x <> None -> size c l' <= size c l - 1)%nat -> bound l' t (out x k).
Proof.
  intros Hb Hx Hs Hc. destruct x as [x|]; [|by eapply bound_less].
  intros d y Hy. simpl. destruct (decide (y = x)) as [->|Hne].
  - assert (d = c) as ->. { destruct c, d; simpl in Hx, Hy; repeat case_match; try done; simplify_eq; repeat match goal with H : (_ =? _) = true |- _ => apply N.eqb_eq in H end; congruence. }
    pose proof (Hb c x Hx). rewrite bool_decide_eq_false_2 by (rewrite elem_of_list_filter; tauto). case_bool_decide; specialize (Hc ltac:(done)); lia.
  - pose proof (Hb d y Hy) as Hd. specialize (Hs d). rewrite Hy in Hs. specialize (Hs ltac:(done)).
    case_bool_decide as H1; case_bool_decide as H2; try lia. destruct H2. apply elem_of_list_filter. done.
Qed.
Lemma bound_into l l' t k k' c x : bound l t k -> temp_of t c = x -> into x k = Some k' ->
  (forall d, temp_of t d <> None -> d <> c -> (size d l' <= size d l)%nat) -> (x <> None -> size c l' <= size c l + 1)%nat -> bound l' t k'.
Proof.
  intros Hb Hx Hi Hs Hc. destruct x as [x|]; simpl in Hi.
  - case_bool_decide as Hin; [done|]. injection Hi as <-. intros d y Hy. destruct (decide (y = x)) as [->|Hne].
    + assert (d = c) as ->. { destruct c, d; simpl in Hx, Hy; repeat case_match; try done; simplify_eq; repeat match goal with H : (_ =? _) = true |- _ => apply N.eqb_eq in H end; congruence. }
      pose proof (Hb c x Hx) as H1. rewrite bool_decide_eq_false_2 in H1 by done. rewrite bool_decide_eq_true_2 by by left.
      specialize (Hc ltac:(done)). lia.
    + assert (Hd : d <> c) by congruence. pose proof (Hb d y Hy) as H1. specialize (Hs d). rewrite Hy in Hs. specialize (Hs ltac:(done) Hd).
      case_bool_decide as H2; case_bool_decide as H3; try lia. destruct H3. by right.
  - injection Hi as <-. eapply bound_less; [exact Hb|]. intros d Hd. apply Hs; [done|]. congruence.
Qed.

Lemma decr_same s t o s' : decr s t o = Ok s' -> ptrs s' = ptrs s /\ prog s' = prog s.
Proof. unfold decr. repeat case_match; try done; by intros [= <-]. Qed.
Lemma release_same s t p s' : release s t p = Ok s' -> ptrs s' = ptrs s /\ prog s' = prog s.
Proof. destruct p; simpl; [apply decr_same | by intros [= <-]]. Qed.
Lemma copy_same s o c s' : copy s o c = Ok s' -> ptrs s' = ptrs s ++ [(c, Some o)] /\ prog s' = prog s.
Proof. unfold copy, incr. repeat case_match; try done; simpl; by intros [= <-]. Qed.
Lemma fill_same n os : forall s s', fill s n os = Ok s' -> ptrs s' = ptrs s ++ ((fun o => (CField n FInner, Some o)) <$> os) /\ prog s' = prog s.
Proof.
  induction os as [|o os IH]; intros s s'; cbn [fill].
  - intros [= <-]. by rewrite app_nil_r.
  - destruct (copy s o (CField n FInner)) as [s1| |] eqn:Hc; cbn [rbind]; try done. intros Hf.
    apply copy_same in Hc as [H1 H2]. apply IH in Hf as [H3 H4]. split; [|congruence]. rewrite H3, H1, <- app_assoc. done.
Qed.
Lemma size_fields c n (os : list N) u : temp_of u c <> None -> size c ((fun o => (CField n FInner, Some o)) <$> os) = 0%nat.
Proof. intros Hc. induction os as [|o os IH]; simpl; [done|]. rewrite bool_decide_eq_false_2 by (intros <-; done). done. Qed.

(** What a step does to the places: to those of other threads, to the variables of the
    thread itself, to empty entries and programs. *)
Record tidy (s s' : mem) (t : N) (i : instr) : Prop := {
  ty_other : forall u c, u <> t -> temp_of u c <> None -> (size c (ptrs s') <= size c (ptrs s))%nat;
  ty_own : forall k k', bound (ptrs s) t k -> eff t i k = Some k' -> bound (ptrs s') t k';
  ty_solid : solid (ptrs s) -> solid (ptrs s');
  ty_prog : (forall u, prog s' u = prog s u) \/ (exists p, i = IDrain p /\ prog s' t = i :: prog s t /\ forall u, u <> t -> prog s' u = prog s u)
}.
Ltac none_var Hs Ht := exfalso; apply take1_perm in Ht; eapply Hs; [rewrite Ht; by left | done].
Ltac sz := intros; rewrite ?size_app; simpl; repeat (case_bool_decide; simplify_eq; simpl in *); try congruence; try lia.
Lemma temp_ne u t c x : u <> t -> temp_of u c <> None -> CVar t x <> c /\ CRaw t x <> c.
Proof. intros Hu Hc. split; intros <-; simpl in Hc; destruct (N.eqb_spec t u); congruence. Qed.
Lemma temp_var t x : temp_of t (CVar t x) = tv x.
Proof. simpl. by rewrite N.eqb_refl. Qed.
Lemma temp_raw t x : temp_of t (CRaw t x) = Some (TRaw x).
Proof. simpl. by rewrite N.eqb_refl. Qed.
Lemma exec_tidy s t i s' : solid (ptrs s) -> exec s t i = Ok s' -> ok_instr i = true -> tidy s s' t i.
Proof.
  intros Hsol He Hi.
  assert (Hsame : s' = s -> (forall k k', bound (ptrs s) t k -> eff t i k = Some k' -> bound (ptrs s) t k') -> tidy s s' t i).
  { intros -> H. split; auto. }
  destruct i as [x|x kd route inner|c x|c bk r|r x add|c bk|x c fr|x p|r p|p r|x|c o|p|x p|x rt]; cbn [exec] in He.
  - (* INew *)
    injection He as <-. split; simpl; [| | |by left].
    + intros u c Hu Hc. destruct (temp_ne _ _ _ x Hu Hc). sz.
    + intros k k' Hb Hk. eapply bound_into; [exact Hb | apply temp_var | exact Hk | |]; sz.
    + intros _ c Hin. apply elem_of_app in Hin as [Hin|Hin]; [by apply Hsol in Hin | apply elem_of_list_singleton in Hin; congruence].
  - (* IMake *)
    case_bool_decide; [done|]. destruct (loads s t inner) as [os| |]; cbn [rbind] in He; try done.
    apply fill_same in He as [H1 H2]. split; rewrite ?H1, ?H2; simpl; [| | |by left].
    + intros u c Hu Hc. destruct (temp_ne _ _ _ x Hu Hc). rewrite !size_app, (size_fields _ _ _ u Hc). sz.
    + intros k k' Hb Hk. eapply bound_into; [exact Hb | apply temp_var | exact Hk | |].
      * intros d Hd Hne. rewrite !size_app, (size_fields _ _ _ t Hd). sz.
      * intros Hd. rewrite !size_app, (size_fields _ _ _ t) by (rewrite temp_var; done). sz.
    + intros _ c Hin. apply elem_of_app in Hin as [Hin|Hin].
      * apply elem_of_app in Hin as [Hin|Hin]; [by apply Hsol in Hin | apply elem_of_list_singleton in Hin; congruence].
      * apply elem_of_list_fmap in Hin as (o & [=] & _).
  - (* ICopy *)
    destruct (open s c); [|done]. destruct (first s c) as [o|].
    + apply copy_same in He as [H1 H2]. split; rewrite ?H1, ?H2; [| | |by left].
      * intros u d Hu Hc. destruct (temp_ne _ _ _ x Hu Hc). sz.
      * intros k k' Hb Hk. eapply bound_into; [exact Hb | apply temp_var | exact Hk | |]; sz.
      * intros _ d Hin. apply elem_of_app in Hin as [Hin|Hin]; [by apply Hsol in Hin | apply elem_of_list_singleton in Hin; congruence].
    + injection He as <-. apply Hsame; [done|]. intros k k' Hb Hk. eapply bound_into; [exact Hb | apply temp_var | exact Hk | |]; sz.
  - (* IDetach *)
    destruct (open s c); [|done].
    assert (Hnone : forall k k', bound (ptrs s) t k -> (temp_of t c <> None -> size c (ptrs s) = 0%nat) -> eff t (IDetach c bk r) k = Some k' -> bound (ptrs s) t k').
    { intros k k' Hb Hz Hk. cbn [eff] in Hk. apply (bound_into (ptrs s) _ t (out (temp_of t c) k) k' (CRaw t r) (Some (TRaw r))); [| exact (temp_raw t r) | exact Hk | sz | sz].
      eapply bound_out; [exact Hb | reflexivity | sz |]. intros Hne. rewrite Hz by done. lia. }
    destruct (take bk c (ptrs s)) as [[[o|] l]|] eqn:Ht.
    + pose proof (take_perm _ _ _ _ _ Ht) as Hp. injection He as <-. cbn [ptrs prog set_ptrs].
      assert (Hsz : forall d, MemModel.owner d = None -> size d (ptrs (set_ptrs s ((match MemModel.owner c with Some _ => put_entry (negb bk) (c, None) l | None => l end) ++ [(CRaw t r, Some o)]))) = (size d l + if bool_decide (CRaw t r = d) then 1 else 0)%nat).
      { intros d Hd. simpl. rewrite size_app. simpl. rewrite Nat.add_0_r. f_equal. destruct (MemModel.owner c) eqn:Hc; [|done].
        unfold put_entry. destruct (negb bk); simpl; rewrite ?size_app; simpl; rewrite bool_decide_eq_false_2 by congruence; lia. }
      split; [| | |by left].
      * intros u d Hu Hd. pose proof Hd as Hd'. destruct (temp_of u d) as [y|] eqn:Hy; [|done]. rewrite Hsz by by eapply temp_owner.
        rewrite <- Hy in Hd. destruct (temp_ne _ _ _ r Hu Hd). rewrite (size_perm _ _ _ Hp). sz.
      * intros k k' Hb Hk. cbn [eff] in Hk. apply (bound_into l _ t (out (temp_of t c) k) k' (CRaw t r) (Some (TRaw r))); [| exact (temp_raw t r) | exact Hk | |].
        -- eapply (bound_out _ l); [exact Hb | reflexivity | |]; [intros d Hd; rewrite (size_perm _ _ _ Hp); sz | intros Hne; rewrite (size_perm _ _ _ Hp); sz].
        -- intros d Hd Hne. destruct (temp_of t d) as [y|] eqn:Hy; [|done]. rewrite Hsz by by eapply temp_owner. sz.
        -- intros _. rewrite Hsz by done. sz.
      * intros _ d Hin. simpl in Hin. apply elem_of_app in Hin as [Hin|Hin]; [|apply elem_of_list_singleton in Hin; congruence].
        assert (Hl : (d, None) ∈ l -> MemModel.owner d <> None) by (intros Hd; apply Hsol; rewrite Hp; by right).
        destruct (MemModel.owner c) as [q|] eqn:Hc; [|by apply Hl]. unfold put_entry in Hin.
        destruct (negb bk); [apply elem_of_cons in Hin as [[= ->]|Hin]; [congruence | by apply Hl]|].
        apply elem_of_app in Hin as [Hin|Hin]; [by apply Hl | apply elem_of_list_singleton in Hin; congruence].
    + injection He as <-. apply Hsame; [done|]. intros k k' Hb. apply Hnone; [done|]. intros Hne.
      exfalso. destruct (temp_of t c) as [y|] eqn:Hy; [|done]. apply temp_owner in Hy. apply (Hsol c); [|done].
      rewrite (take_perm _ _ _ _ _ Ht). by left.
    + injection He as <-. apply Hsame; [done|]. intros k k' Hb. apply Hnone; [done|]. intros Hne.
      clear -Ht. assert (Hn : forall l, take bk c l = None -> size c l = 0%nat); [|by apply Hn].
      intros l. destruct bk; simpl.
      * induction l as [|[c' q] l IH]; simpl; [done|]. destruct (takeb c l) as [[]|]; [done|]. case_bool_decide; [done|]. intros _. by rewrite IH.
      * induction l as [|[c' q] l IH]; simpl; [done|]. case_bool_decide; [done|]. destruct (take1 c l) as [[]|]; [done|]. intros _. by rewrite IH.
  - (* IAttach *)
    simpl in Hi. apply negb_true_iff in Hi as ->.
    assert (Hnone : size (CRaw t r) (ptrs s) = 0%nat -> forall k k', bound (ptrs s) t k -> eff t (IAttach r x false) k = Some k' -> bound (ptrs s) t k').
    { intros Hz k k' Hb Hk. cbn [eff] in Hk. apply (bound_into (ptrs s) _ t (out (Some (TRaw r)) k) k' (CVar t x) (tv x)); [| exact (temp_var t x) | exact Hk | sz | sz].
      apply (bound_out (ptrs s) (ptrs s) t k (CRaw t r) (Some (TRaw r))); [exact Hb | apply temp_raw | sz |]. intros Hne. rewrite Hz. lia. }
    destruct (take1 (CRaw t r) (ptrs s)) as [[[o|] l]|] eqn:Ht.
    + pose proof (take1_perm _ _ _ _ Ht) as Hp. injection He as <-. split; simpl; [| | |by left].
      * intros u d Hu Hd. destruct (temp_ne _ _ _ x Hu Hd). rewrite (size_perm _ _ _ Hp). sz.
      * intros k k' Hb Hk. cbn [eff] in Hk. apply (bound_into l _ t (out (Some (TRaw r)) k) k' (CVar t x) (tv x)); [| exact (temp_var t x) | exact Hk | |].
        -- apply (bound_out (ptrs s) l t k (CRaw t r) (Some (TRaw r))); [exact Hb | apply temp_raw | |]; [intros d Hd; rewrite (size_perm _ _ _ Hp); sz | intros Hne; rewrite (size_perm _ _ _ Hp); sz].
        -- sz.
        -- sz.
      * intros _ d Hin. apply elem_of_app in Hin as [Hin|Hin]; [apply Hsol; rewrite Hp; by right | apply elem_of_list_singleton in Hin; congruence].
    + exfalso. apply (Hsol (CRaw t r)); [|done]. rewrite (take1_perm _ _ _ _ Ht). by left.
    + injection He as <-. apply Hsame; [done|]. apply Hnone. clear -Ht. revert Ht. generalize (ptrs s). intros l.
      induction l as [|[c' q] l IH]; simpl; [done|]. case_bool_decide; [done|]. destruct (take1 _ l) as [[]|]; [done|]. intros _. by rewrite IH.
  - (* IPop *)
    destruct (open s c); [|done]. destruct (take bk c (ptrs s)) as [[q l]|] eqn:Ht; [|injection He as <-; apply Hsame; [done|]; intros k k' Hb [= <-]; done].
    pose proof (take_perm _ _ _ _ _ Ht) as Hp. apply release_same in He as [H1 H2]. split; rewrite ?H1, ?H2; simpl; [| | |by left].
    + intros u d Hu Hd. rewrite (size_perm _ _ _ Hp). sz.
    + intros k k' Hb [= <-]. eapply bound_less; [exact Hb|]. intros d Hd. rewrite (size_perm _ _ _ Hp). sz.
    + intros _ d Hin. apply Hsol. rewrite Hp. by right.
  - (* IMove *)
    destruct (take1 (CVar t x) (ptrs s)) as [[[o|] l]|] eqn:Ht.
    + pose proof (take1_perm _ _ _ _ Ht) as Hp. destruct (open s c); [|done]. injection He as <-.
      assert (Hsz : forall d, size d (put_entry fr (c, Some o) l) = (size d l + if bool_decide (c = d) then 1 else 0)%nat) by (intros d; unfold put_entry; destruct fr; sz).
      assert (Hct : forall u d, temp_of u d <> None -> c <> d) by (intros u d Hd ->; destruct d; simpl in Hi; done).
      split; simpl; [| | |by left].
      * intros u d Hu Hd. pose proof (Hct u d Hd). rewrite Hsz, (size_perm _ _ _ Hp). sz.
      * intros k k' Hb Hk.
        assert (Hk2 : k' = out (tv x) k) by (destruct c; simpl in Hk; by simplify_eq). subst k'.
        eapply bound_out; [exact Hb | exact (temp_var t x) | |].
        -- intros d Hd. pose proof (Hct t d Hd). rewrite Hsz, (size_perm _ _ _ Hp). sz.
        -- intros Hne. assert (c <> CVar t x) by (apply (Hct t); rewrite temp_var; done). rewrite Hsz, (size_perm _ _ _ Hp). sz.
      * intros _ d Hin. unfold put_entry in Hin. destruct fr; [apply elem_of_cons in Hin as [?|Hin]; [congruence|] | apply elem_of_app in Hin as [Hin|Hin]; [|apply elem_of_list_singleton in Hin; congruence]]; apply Hsol; rewrite Hp; by right.
    + none_var Hsol Ht.
    + injection He as <-. apply Hsame; [done|]. intros k k' Hb Hk.
      assert (Hk2 : k' = out (tv x) k) by (destruct c; simpl in Hk; by simplify_eq). subst k'.
      eapply bound_out; [exact Hb | exact (temp_var t x) | sz |]. intros _.
      assert (Hz : size (CVar t x) (ptrs s) = 0%nat); [|lia].
      clear -Ht. revert Ht. generalize (ptrs s). intros l.
      induction l as [|[c' q] l IH]; simpl; [done|]. case_bool_decide; [done|]. destruct (take1 _ l) as [[]|]; [done|]. intros _. by rewrite IH.
  - (* IAdopt *)
    destruct (take1 (CVar t x) (ptrs s)) as [[[o|] l]|] eqn:Ht.
    + pose proof (take1_perm _ _ _ _ Ht) as Hp. destruct (open s (CField p FChild)); [|done].
      destruct (bool_decide (p < o) && _); injection He as <-; [|apply Hsame; [done|]; intros k k' Hb [= <-]; done].
      split; simpl; [| | |by left].
      * intros u d Hu Hd. assert (CField p FChild <> d) by (intros <-; done). rewrite (size_perm _ _ _ Hp). sz.
      * intros k k' Hb [= <-]. eapply bound_less; [exact Hb|]. intros d Hd. assert (CField p FChild <> d) by (intros <-; done). rewrite (size_perm _ _ _ Hp). sz.
      * intros _ d Hin. apply elem_of_app in Hin as [Hin|Hin]; [apply Hsol; rewrite Hp; by right | apply elem_of_list_singleton in Hin; congruence].
    + none_var Hsol Ht.
    + injection He as <-. apply Hsame; [done|]. intros k k' Hb [= <-]. done.
  - (* IPush *)
    destruct (take1 (CRaw t r) (ptrs s)) as [[[o|] l]|] eqn:Ht.
    + pose proof (take1_perm _ _ _ _ Ht) as Hp. destruct (open s (CIn p)); [|done]. injection He as <-. split; simpl; [| | |by left].
      * intros u d Hu Hd. assert (CIn p <> d) by (intros <-; done). rewrite (size_perm _ _ _ Hp). sz.
      * intros k k' Hb [= <-]. apply (bound_out (ptrs s) _ t k (CRaw t r) (Some (TRaw r))); [exact Hb | apply temp_raw | |].
        -- intros d Hd. assert (CIn p <> d) by (intros <-; done). rewrite (size_perm _ _ _ Hp). sz.
        -- intros _. rewrite (size_perm _ _ _ Hp). sz.
      * intros _ d Hin. apply elem_of_app in Hin as [Hin|Hin]; [apply Hsol; rewrite Hp; by right | apply elem_of_list_singleton in Hin; congruence].
    + none_var Hsol Ht.
    + injection He as <-. apply Hsame; [done|]. intros k k' Hb [= <-].
      apply (bound_out (ptrs s) _ t k (CRaw t r) (Some (TRaw r))); [exact Hb | apply temp_raw | sz |]. intros _.
      assert (Hz : size (CRaw t r) (ptrs s) = 0%nat); [|lia].
      clear -Ht. revert Ht. generalize (ptrs s). intros l.
      induction l as [|[c' q] l IH]; simpl; [done|]. case_bool_decide; [done|]. destruct (take1 _ l) as [[]|]; [done|]. intros _. by rewrite IH.
  - (* IFetch *)
    destruct (open s (CIn p)); [|done].
    assert (Hsm : s' = s -> tidy s s' t (IFetch p r)).
    { intros Hs. apply Hsame; [done|]. intros k k' Hb Hk. eapply bound_into; [exact Hb | exact (temp_raw t r) | exact Hk | |]; sz. }
    destruct (take1 (CIn p) (ptrs s)) as [[[o|] l]|] eqn:Ht; [|injection He as <-; by apply Hsm|injection He as <-; by apply Hsm].
    pose proof (take1_perm _ _ _ _ Ht) as Hp. injection He as <-. split; simpl; [| | |by left].
    + intros u d Hu Hd. destruct (temp_ne _ _ _ r Hu Hd). rewrite (size_perm _ _ _ Hp). sz.
    + intros k k' Hb Hk. eapply bound_into; [exact Hb | exact (temp_raw t r) | exact Hk | |].
      * intros d Hd Hne. rewrite (size_perm _ _ _ Hp). sz.
      * intros _. rewrite (size_perm _ _ _ Hp). sz.
    + intros _ d Hin. apply elem_of_app in Hin as [Hin|Hin]; [apply Hsol; rewrite Hp; by right | apply elem_of_list_singleton in Hin; congruence].
  - (* IReset *)
    destruct (take1 (CVar t x) (ptrs s)) as [[q l]|] eqn:Ht.
    + pose proof (take1_perm _ _ _ _ Ht) as Hp. apply release_same in He as [H1 H2]. split; rewrite ?H1, ?H2; simpl; [| | |by left].
      * intros u d Hu Hd. rewrite (size_perm _ _ _ Hp). sz.
      * intros k k' Hb [= <-]. eapply bound_out; [exact Hb | exact (temp_var t x) | |].
        -- intros d Hd. rewrite (size_perm _ _ _ Hp). sz.
        -- intros _. rewrite (size_perm _ _ _ Hp). sz.
      * intros _ d Hin. apply Hsol. rewrite Hp. by right.
    + injection He as <-. apply Hsame; [done|]. intros k k' Hb [= <-]. eapply bound_out; [exact Hb | exact (temp_var t x) | sz |]. intros _.
      assert (Hz : size (CVar t x) (ptrs s) = 0%nat); [|lia].
      clear -Ht. revert Ht. generalize (ptrs s). intros l.
      induction l as [|[c' q] l IH]; simpl; [done|]. case_bool_decide; [done|]. destruct (take1 _ l) as [[]|]; [done|]. intros _. by rewrite IH.
  - (* IErase *)
    destruct (open s c); [|done]. destruct (pick c o (ptrs s)) as [l|] eqn:Ht; [|injection He as <-; apply Hsame; [done|]; intros k k' Hb [= <-]; done].
    pose proof (pick_perm _ _ _ _ Ht) as Hp. apply release_same in He as [H1 H2]. split; rewrite ?H1, ?H2; simpl; [| | |by left].
    + intros u d Hu Hd. rewrite (size_perm _ _ _ Hp). sz.
    + intros k k' Hb [= <-]. eapply bound_less; [exact Hb|]. intros d Hd. rewrite (size_perm _ _ _ Hp). sz.
    + intros _ d Hin. apply Hsol. rewrite Hp. by right.
  - (* IDrain *)
    destruct (open s (CIn p)); [|done]. destruct (take1 (CIn p) (ptrs s)) as [[q l]|] eqn:Ht; [|injection He as <-; apply Hsame; [done|]; intros k k' Hb [= <-]; done].
    pose proof (take1_perm _ _ _ _ Ht) as Hp. apply release_same in He as [H1 H2]. split; rewrite ?H1, ?H2; simpl.
    + intros u d Hu Hd. rewrite (size_perm _ _ _ Hp). sz.
    + intros k k' Hb [= <-]. eapply bound_less; [exact Hb|]. intros d Hd. rewrite (size_perm _ _ _ Hp). sz.
    + intros _ d Hin. apply Hsol. rewrite Hp. by right.
    + right. exists p. split; [done|]. split; [by rewrite bool_decide_eq_true_2|]. intros u Hu. by rewrite bool_decide_eq_false_2.
  - (* IRoute *)
    destruct (take1 (CVar t x) (ptrs s)) as [[[o|] l]|] eqn:Ht.
    + pose proof (take1_perm _ _ _ _ Ht) as Hp. destruct (heap s !! o) as [b|]; [|done]. destruct (o_route b && _).
      * destruct (open s (CQueue p)); [|done]. injection He as <-. split; simpl; [| | |by left].
        -- intros u d Hu Hd. assert (CQueue p <> d) by (intros <-; done). rewrite (size_perm _ _ _ Hp). sz.
        -- intros k k' Hb [= <-]. eapply bound_less; [exact Hb|]. intros d Hd. assert (CQueue p <> d) by (intros <-; done). rewrite (size_perm _ _ _ Hp). sz.
        -- intros _ d Hin. apply elem_of_app in Hin as [Hin|Hin]; [apply Hsol; rewrite Hp; by right | apply elem_of_list_singleton in Hin; congruence].
      * injection He as <-. apply Hsame; [done|]. intros k k' Hb [= <-]. done.
    + none_var Hsol Ht.
    + injection He as <-. apply Hsame; [done|]. intros k k' Hb [= <-]. done.
  - (* IMark *)
    assert (Hid : ptrs s' = ptrs s /\ prog s' = prog s) by (repeat case_match; try done; by injection He as <-). destruct Hid as [H1 H2].
    split; rewrite ?H1, ?H2; [done | by intros k k' Hb [= <-] | done | by left].
Qed.
