(** Every step keeps the invariant, and crashes only against the rule. *)
From stdpp Require Import base list gmap.
From Verif Require Import Base MemModel MemSpec MemInv.
Open Scope N_scope.

(** [r] is fine, or something was reached which is not alive ([P]). *)
Definition fine (r : res mem) (P : Prop) : Prop :=
  match r with Ok s => JS s | Crash => P | AssertFail => False end.
Lemma fine_weak r (P Q : Prop) : fine r P -> (P -> Q) -> fine r Q.
Proof. destruct r; simpl; auto. Qed.

Lemma usable_alive s o : usable s o = true <-> alive s o.
Proof.
  unfold usable, alive. destruct (heap s !! o) as [b|].
  - rewrite negb_true_iff, N.eqb_neq. split; [intros H; by exists b | intros (b' & [= <-] & H); done].
  - split; [done | intros (b & [=] & _)].
Qed.
Definition shut (s : mem) (c : cell) : Prop := exists p, MemModel.owner c = Some p /\ ~ alive s p.
Lemma open_true s c : open s c = true -> forall p, MemModel.owner c = Some p -> exists b, heap s !! p = Some b /\ o_cnt b <> 0.
Proof. unfold open. intros H p Hp. rewrite Hp in H. by apply usable_alive in H. Qed.
Lemma open_false s c : open s c = false -> shut s c.
Proof.
  unfold open, shut. destruct (MemModel.owner c) as [p|]; [|done]. intros H. exists p. split; [done|].
  intros Ha. apply usable_alive in Ha. congruence.
Qed.
Lemma JS_perm s l : ptrs s ≡ₚ l -> JS s -> J (heap s) l (dying s) (next s).
Proof. intros Hl HJ. eapply J_perm; [exact Hl | reflexivity | exact HJ]. Qed.
Lemma JS_at h l d n pr l' d' : J h l' d' n -> l' ≡ₚ l -> d' ≡ₚ d -> JS (Mem h l d n pr).
Proof. intros HJ Hl Hd. unfold JS. simpl. eapply J_perm; [exact Hl | exact Hd | exact HJ]. Qed.

(** The pointer is gone from its place; then the counter follows. *)
Lemma fine_decr h l d n pr t c o P : J h ((c, Some o) :: l) d n -> fine (decr (Mem h l d n pr) t o) P.
Proof.
  intros HJ. destruct (J_release _ _ _ _ _ _ t HJ) as (b & Hb & Hnz & HJ'). unfold decr. simpl. rewrite Hb.
  destruct (N.eqb_spec (o_cnt b) 0) as [?|_]; [done|].
  destruct (N.eqb_spec (o_cnt b) 1) as [He|He]; unfold fine, set_cnt, JS; simpl.
  - replace (o_cnt b - 1) with 0 in HJ' by lia. exact HJ'.
  - exact HJ'.
Qed.
Lemma fine_release h l d n pr t c p P : J h ((c, p) :: l) d n -> fine (release (Mem h l d n pr) t p) P.
Proof. intros HJ. destruct p as [o|]; simpl; [by eapply fine_decr | by eapply J_drop_null]. Qed.
Lemma fine_copy s c o : JS s -> alive s o -> room (heap s) c o -> exists s', copy s o c = Ok s' /\ JS s' /\
  prog s' = prog s /\ dying s' = dying s /\ next s' = next s /\ ptrs s' = ptrs s ++ [(c, Some o)] /\
  (forall p b, heap s !! p = Some b -> exists b', heap s' !! p = Some b' /\ o_kind b' = o_kind b /\ (o_cnt b <> 0 -> o_cnt b' <> 0)).
Proof.
  intros HJ (b & Hb & Hnz) Hr. unfold copy, incr. rewrite Hb. destruct (N.eqb_spec (o_cnt b) 0) as [?|_]; [done|]. simpl.
  eexists. split; [done|]. split_and!; try done.
  - eapply JS_at; [exact (J_copy _ c _ _ _ _ _ HJ Hb Hnz Hr) | apply Permutation_cons_append | reflexivity].
  - intros p b1 Hb1. simpl. destruct (decide (o = p)) as [->|Hne].
    + rewrite lookup_insert. eexists. split; [done|]. simpl. rewrite Hb in Hb1. injection Hb1 as <-. split; [done|]. lia.
    + rewrite lookup_insert_ne by done. by exists b1.
Qed.
Lemma room_free h c o : MemModel.owner c = None -> room h c o.
Proof. intros Hc. split_and!; intros p Hp; [congruence | by subst | by subst]. Qed.
Lemma room_plain s c o : open s c = true -> (forall p, c <> CField p FInner) -> (forall p, c <> CField p FChild) -> room (heap s) c o.
Proof. intros Ho H1 H2. split_and!; [by apply open_true | intros p Hp; by destruct (H1 p) | intros p Hp; by destruct (H2 p)]. Qed.

Definition plain (c : cell) : bool := match c with CField _ f => back f | _ => true end.
Lemma plain_ne c : plain c = true -> (forall p, c <> CField p FInner) /\ (forall p, c <> CField p FChild).
Proof. intros Hp. split; intros p ->; done. Qed.
(** Operations which keep counters and pointers in step. *)
Definition ok_instr (i : instr) : bool :=
  match i with
  | IMake _ k _ _ => negb (bool_decide (k = KActor))
  | IAttach _ _ add => negb add
  | IMove _ c _ => plain c && match c with CVar _ _ | CRaw _ _ => false | _ => true end
  | _ => true
  end.
Definition offends (s : mem) (i : instr) : Prop :=
  (exists c, c ∈ places i /\ shut s c) \/ (exists o, o ∈ objects i /\ ~ alive s o).

Lemma first_in s c o : first s c = Some o -> (c, Some o) ∈ ptrs s.
Proof.
  unfold first. destruct (take1 c (ptrs s)) as [[[o'|] l]|] eqn:Ht; [|done|done]. intros [= ->].
  rewrite (take1_perm _ _ _ _ Ht). by left.
Qed.
Lemma held_alive s c o : JS s -> (c, Some o) ∈ ptrs s -> alive s o.
Proof.
  intros HJ Hin. destruct (j_live _ _ _ _ HJ c o Hin) as [b Hb]. exists b. split; [done|].
  rewrite (j_cnt _ _ _ _ HJ o b Hb). pose proof (pointers_pos _ _ _ Hin). lia.
Qed.
Lemma load_alive s t x p : JS s -> load s t x = Ok p -> forall o, p = Some o -> alive s o.
Proof.
  intros HJ Hl o ->. destruct x as [x|c o1|o1]; simpl in Hl.
  - injection Hl as Hl. apply first_in in Hl. by eapply held_alive.
  - destruct (open s c); [|done]. destruct (has s c o1) eqn:Hh; [|done]. injection Hl as ->.
    apply bool_decide_eq_true in Hh. by eapply held_alive.
  - destruct (usable s o1) eqn:Hu; [|done]. injection Hl as ->. by apply usable_alive.
Qed.
Lemma loads_fine s t inner : JS s ->
  match loads s t inner with
  | Ok os => forall o, o ∈ os -> alive s o
  | Crash => (exists c, c ∈ concat (src_cells <$> inner) /\ shut s c) \/ (exists o, o ∈ concat (src_raws <$> inner) /\ ~ alive s o)
  | AssertFail => False
  end.
Proof.
  intros HJ. induction inner as [|x inner IH]; simpl; [intros o Ho; by apply elem_of_nil in Ho|].
  destruct (load s t x) as [p| |] eqn:Hl; simpl.
  - destruct (loads s t inner) as [os| |]; simpl; [|done|].
    + intros o Ho. apply elem_of_app in Ho as [Ho|Ho]; [|by apply IH]. destruct p as [o1|]; [|by apply elem_of_nil in Ho].
      apply elem_of_list_singleton in Ho as ->. by eapply load_alive.
    + destruct IH as [(c & Hc & Hs)|(o & Ho & Hs)]; [left; exists c | right; exists o]; (split; [|done]); apply elem_of_app; by right.
  - destruct x as [x|c o|o]; simpl in Hl; [done | by destruct (open s c) | by destruct (usable s o)].
  - destruct x as [x|c o|o]; simpl in Hl; [done | |].
    + destruct (open s c) eqn:Ho; [done|]. left. exists c. split; [by left | by apply open_false].
    + destruct (usable s o) eqn:Ho; [done|]. right. exists o. split; [by left | rewrite <- usable_alive; congruence].
Qed.
Lemma fill_fine n os : forall s k, JS s -> k <> KActor ->
  (exists b, heap s !! n = Some b /\ o_kind b = k /\ o_cnt b <> 0) -> (forall o, o ∈ os -> alive s o /\ o < n) ->
  exists s', fill s n os = Ok s' /\ JS s' /\ prog s' = prog s /\ dying s' = dying s /\
    (forall c p, c <> CField n FInner -> (c, p) ∈ ptrs s' <-> (c, p) ∈ ptrs s) /\
    ptrs s' = ptrs s ++ ((fun o => (CField n FInner, Some o)) <$> os).
Proof.
  induction os as [|o os IH]; intros s k HJ Hk Hn Hos; cbn [fill].
  { exists s. split_and!; try done. by rewrite app_nil_r. }
  destruct (Hos o) as [Ha Hlt]; [by left|].
  destruct (fine_copy s (CField n FInner) o HJ Ha) as (s1 & Hs1 & HJ1 & Hpr & Hd & Hnx & Hpt & Hp).
  { split_and!.
    - intros p [= <-]. destruct Hn as (b & Hb & _ & Hc). by exists b.
    - intros p [= <-]. split; [done|]. intros b Hb. destruct Hn as (b' & Hb' & Hkb & _). congruence.
    - intros p [=]. }
  rewrite Hs1. cbn [rbind].
  destruct (IH s1 k HJ1 Hk) as (s' & Hs' & HJ' & Hpr' & Hd' & Hc' & Hpt').
  - destruct Hn as (b & Hb & Hkb & Hc). destruct (Hp n b Hb) as (b' & Hb' & Hkb' & Hc'). exists b'. split_and!; [done | congruence | auto].
  - intros o1 Ho1. destruct (Hos o1) as [(b & Hb & Hc) Hl1]; [by right|]. split; [|done]. destruct (Hp o1 b Hb) as (b' & Hb' & _ & Hc'). exists b'. auto.
  - exists s'. split_and!; [done | done | congruence | congruence | | ].
    + intros c p Hc. rewrite (Hc' c p Hc), Hpt, elem_of_app, elem_of_list_singleton. split; [intros [?|[= ? ?]]; [done | congruence] | by left].
    + rewrite Hpt', Hpt, <- app_assoc. done.
Qed.

Lemma exec_fine s t i : JS s -> ok_instr i = true -> fine (exec s t i) (offends s i).
Proof.
  intros HJ Hi. destruct i as [x|x k route inner|c x|c bk r|r x add|c bk|x c fr|x p|r p|p r|x|c o|p|x p|x rt]; cbn [exec].
  - (* INew *)
    unfold alloc. eapply JS_at; [exact (J_alloc _ _ _ _ KActor false (CVar t x) HJ eq_refl) | apply Permutation_cons_append | reflexivity].
  - (* IMake *)
    simpl in Hi. apply negb_true_iff in Hi. rewrite Hi. apply bool_decide_eq_false in Hi.
    pose proof (loads_fine s t inner HJ) as Hl. destruct (loads s t inner) as [os| |]; cbn [rbind]; [|done|].
    + assert (HJ1 : JS (alloc s k route (CVar t x))) by (eapply JS_at; [exact (J_alloc _ _ _ _ k route (CVar t x) HJ eq_refl) | apply Permutation_cons_append | reflexivity]).
      destruct (fill_fine (next s) os _ k HJ1 Hi) as (s' & Hs' & HJ' & _); [| |by rewrite Hs'].
      * simpl. rewrite lookup_insert. eexists. split; [done|]. split; [done|]. simpl. lia.
      * intros o Ho. destruct (Hl o Ho) as (b & Hb & Hc). assert (o < next s) by (apply (j_next _ _ _ _ HJ); by exists b).
        split; [|done]. exists b. simpl. rewrite lookup_insert_ne by lia. done.
    + exact Hl.
  - (* ICopy *)
    destruct (open s c) eqn:Ho; [|left; exists c; split; [by left | by apply open_false]].
    destruct (first s c) as [o|] eqn:Hf; [|done]. apply first_in in Hf.
    destruct (fine_copy s (CVar t x) o HJ) as (s' & Hs' & HJ' & _); [by eapply held_alive | by apply room_free|]. by rewrite Hs'.
  - (* IDetach *)
    destruct (open s c) eqn:Ho; [|left; exists c; split; [by left | by apply open_false]].
    destruct (take bk c (ptrs s)) as [[[o|] l]|] eqn:Ht; [|done|done]. apply take_perm in Ht.
    pose proof (JS_perm _ _ Ht HJ) as H1. apply (J_move _ _ (CRaw t r)) in H1; [|by apply room_free].
    destruct (MemModel.owner c) as [p|] eqn:Hc.
    + apply (J_null _ c) in H1; [|by apply open_true].
      eapply JS_at; [exact H1 | | reflexivity]. unfold put_entry. destruct (negb bk).
      * rewrite <- app_comm_cons. apply perm_skip. apply Permutation_cons_append.
      * rewrite <- app_assoc. by rewrite (Permutation_app_comm l).
    + eapply JS_at; [exact H1 | apply Permutation_cons_append | reflexivity].
  - (* IAttach *)
    simpl in Hi. apply negb_true_iff in Hi as ->.
    destruct (take1 (CRaw t r) (ptrs s)) as [[[o|] l]|] eqn:Ht; [|done|done]. apply take1_perm in Ht.
    pose proof (JS_perm _ _ Ht HJ) as H1. apply (J_move _ _ (CVar t x)) in H1; [|by apply room_free].
    eapply JS_at; [exact H1 | apply Permutation_cons_append | reflexivity].
  - (* IPop *)
    destruct (open s c) eqn:Ho; [|left; exists c; split; [by left | by apply open_false]].
    destruct (take bk c (ptrs s)) as [[p l]|] eqn:Ht; [|done]. apply take_perm in Ht.
    eapply fine_release. exact (JS_perm _ _ Ht HJ).
  - (* IMove *)
    destruct (take1 (CVar t x) (ptrs s)) as [[[o|] l]|] eqn:Ht; [|done|done]. apply take1_perm in Ht.
    destruct (open s c) eqn:Ho; [|left; exists c; split; [by left | by apply open_false]].
    apply andb_true_iff in Hi as [Hi _]. destruct (plain_ne _ Hi) as [Hp1 Hp2].
    pose proof (JS_perm _ _ Ht HJ) as H1. apply (J_move _ _ c) in H1; [|by apply room_plain].
    eapply JS_at; [exact H1 | | reflexivity]. unfold put_entry. destruct fr; [done | apply Permutation_cons_append].
  - (* IAdopt *)
    destruct (take1 (CVar t x) (ptrs s)) as [[[o|] l]|] eqn:Ht; [|done|done]. apply take1_perm in Ht.
    destruct (open s (CField p FChild)) eqn:Ho; [|left; eexists; split; [by left | by apply open_false]].
    destruct (bool_decide (p < o) && bool_decide (o_kind <$> heap s !! o = Some KActor)) eqn:Hb; [|done].
    apply andb_true_iff in Hb as [Hb1 Hb2]. apply bool_decide_eq_true in Hb1, Hb2.
    destruct (heap s !! o) as [b|] eqn:Hob; simpl in Hb2; [|done].
    pose proof (JS_perm _ _ Ht HJ) as H1. apply (J_move _ _ (CField p FChild)) in H1.
    + eapply JS_at; [exact H1 | apply Permutation_cons_append | reflexivity].
    + split_and!; [by apply open_true | intros q [=] | intros q [= <-]; split; [done|]; exists b; split; [done | congruence]].
  - (* IPush *)
    destruct (take1 (CRaw t r) (ptrs s)) as [[[o|] l]|] eqn:Ht; [|done|done]. apply take1_perm in Ht.
    destruct (open s (CIn p)) eqn:Ho; [|left; eexists; split; [by left | by apply open_false]].
    pose proof (JS_perm _ _ Ht HJ) as H1. apply (J_move _ _ (CIn p)) in H1; [|by apply room_plain].
    eapply JS_at; [exact H1 | apply Permutation_cons_append | reflexivity].
  - (* IFetch *)
    destruct (open s (CIn p)) eqn:Ho; [|left; eexists; split; [by left | by apply open_false]].
    destruct (take1 (CIn p) (ptrs s)) as [[[o|] l]|] eqn:Ht; [|done|done]. apply take1_perm in Ht.
    pose proof (JS_perm _ _ Ht HJ) as H1. apply (J_move _ _ (CRaw t r)) in H1; [|by apply room_free].
    eapply JS_at; [exact H1 | apply Permutation_cons_append | reflexivity].
  - (* IReset *)
    destruct (take1 (CVar t x) (ptrs s)) as [[p l]|] eqn:Ht; [|done]. apply take1_perm in Ht.
    eapply fine_release. exact (JS_perm _ _ Ht HJ).
  - (* IErase *)
    destruct (open s c) eqn:Ho; [|left; exists c; split; [by left | by apply open_false]].
    destruct (pick c o (ptrs s)) as [l|] eqn:Ht; [|done]. apply pick_perm in Ht.
    eapply fine_release. exact (JS_perm _ _ Ht HJ).
  - (* IDrain *)
    destruct (open s (CIn p)) eqn:Ho; [|left; eexists; split; [by left | by apply open_false]].
    destruct (take1 (CIn p) (ptrs s)) as [[q l]|] eqn:Ht; [|done]. apply take1_perm in Ht.
    eapply fine_release. exact (JS_perm _ _ Ht HJ).
  - (* IRoute *)
    destruct (take1 (CVar t x) (ptrs s)) as [[[o|] l]|] eqn:Ht; [|done|done]. apply take1_perm in Ht.
    pose proof (JS_perm _ _ Ht HJ) as H1.
    destruct (heap s !! o) as [b|] eqn:Hb.
    + destruct (o_route b && (o_cnt b =? 1)) eqn:Hr.
      * destruct (open s (CQueue p)) eqn:Ho; [|left; eexists; split; [by left | by apply open_false]].
        apply (J_move _ _ (CQueue p)) in H1; [|by apply room_plain].
        eapply JS_at; [|apply Permutation_cons_append|reflexivity].
        cut (J (<[o:=Obj (o_kind b) (o_cnt b) false]> (heap s)) ((CQueue p, Some o) :: l) (dying s) (next s)); [done|].
        eapply J_route; eauto.
      * exact HJ.
    + exfalso. destruct (j_live _ _ _ _ H1 (CVar t x) o) as [b Hb']; [by left | congruence].
  - (* IMark *)
    destruct (first s (CVar t x)) as [o|] eqn:Hf; [|done]. apply first_in in Hf.
    destruct (heap s !! o) as [b|] eqn:Hb; [|exfalso; destruct (j_live _ _ _ _ HJ _ _ Hf); congruence].
    apply J_route; [exact HJ | done].
Qed.
