(** The invariant of the pointers and counters, and its elementary changes. *)
From stdpp Require Import base list gmap.
From Verif Require Import Base MemModel MemSpec.
Open Scope N_scope.

Lemma take1_perm c l p l' : take1 c l = Some (p, l') -> l ≡ₚ (c, p) :: l'.
Proof.
  revert p l'. induction l as [|[c' q] l IH]; intros p l'; simpl; [done|].
  case_bool_decide as He; [intros [= -> ->]; by subst|].
  destruct (take1 c l) as [[q' l2]|] eqn:Ht; [|done]. intros [= -> <-]. rewrite (IH _ _ eq_refl). apply perm_swap.
Qed.
Lemma take1_none c l : take1 c l = None -> forall p, (c, p) ∉ l.
Proof.
  induction l as [|[c' q] l IH]; simpl; [intros _ p; apply not_elem_of_nil|].
  case_bool_decide as He; [done|]. destruct (take1 c l) as [[q' l2]|] eqn:Ht; [done|]. intros _ p.
  apply not_elem_of_cons. split; [congruence | by apply IH].
Qed.
Lemma takeb_perm c l p l' : takeb c l = Some (p, l') -> l ≡ₚ (c, p) :: l'.
Proof.
  revert p l'. induction l as [|[c' q] l IH]; intros p l'; simpl; [done|].
  destruct (takeb c l) as [[q' l2]|] eqn:Ht.
  - intros [= -> <-]. rewrite (IH _ _ eq_refl). apply perm_swap.
  - case_bool_decide as He; [intros [= -> ->]; by subst | done].
Qed.
Lemma take_perm b c l p l' : take b c l = Some (p, l') -> l ≡ₚ (c, p) :: l'.
Proof. destruct b; [apply takeb_perm | apply take1_perm]. Qed.
Lemma pick_perm c o l l' : pick c o l = Some l' -> l ≡ₚ (c, Some o) :: l'.
Proof.
  revert l'. induction l as [|e l IH]; intros l'; simpl; [done|].
  case_bool_decide as He; [intros [= ->]; by subst|].
  destruct (pick c o l) as [l2|] eqn:Ht; simpl; [|done]. intros [= <-]. rewrite (IH _ eq_refl). apply perm_swap.
Qed.
Lemma member_perm o l p l' : member o l = Some (p, l') -> exists c, MemModel.owner c = Some o /\ l ≡ₚ (c, p) :: l'.
Proof.
  revert p l'. induction l as [|[c' q] l IH]; intros p l'; simpl; [done|].
  destruct (bool_decide (MemModel.owner c' = Some o) && negb (bool_decide (c' = CIn o))) eqn:Hb.
  - apply andb_true_iff in Hb as [Hb _]. apply bool_decide_eq_true in Hb. intros [= -> ->]. by exists c'.
  - destruct (member o l) as [[q' l2]|] eqn:Ht; [|done]. intros [= -> <-].
    destruct (IH _ _ eq_refl) as (c & Hc & Hl). exists c. split; [done|]. rewrite Hl. apply perm_swap.
Qed.
Lemma member_none o l : member o l = None -> forall c p, MemModel.owner c = Some o -> c <> CIn o -> (c, p) ∉ l.
Proof.
  induction l as [|[c' q] l IH]; simpl; [intros _ c p _ _; apply not_elem_of_nil|].
  destruct (bool_decide (MemModel.owner c' = Some o) && negb (bool_decide (c' = CIn o))) eqn:Hb; [done|].
  destruct (member o l) as [[q' l2]|] eqn:Ht; [done|]. intros _ c p Hc Hn.
  apply not_elem_of_cons. split; [|by apply IH].
  intros [= <- <-]. rewrite bool_decide_eq_true_2, bool_decide_eq_false_2 in Hb; done.
Qed.
Lemma current_perm t d o p d' : current t d = Some (o, p, d') -> d ≡ₚ (t, o, p) :: d'.
Proof.
  revert o p d'. induction d as [|[[u o1] p1] d IH]; intros o p d'; simpl; [done|].
  case_bool_decide as He; [intros [= -> -> ->]; by subst|].
  destruct (current t d) as [[[o2 p2] d2]|] eqn:Ht; [|done]. intros [= -> -> <-]. rewrite (IH _ _ _ eq_refl). apply perm_swap.
Qed.

(** ** The invariant *)
Definition ids (d : list (N * N * phase)) : list N := (fun x => x.1.2) <$> d.
Record J (h : gmap N obj) (l : list entry) (d : list (N * N * phase)) (n : N) : Prop := {
  j_cnt : forall o b, h !! o = Some b -> o_cnt b = N.of_nat (pointers o l);
  j_live : forall c o, (c, Some o) ∈ l -> is_Some (h !! o);
  j_die : forall o, o ∈ ids d <-> exists b, h !! o = Some b /\ o_cnt b = 0;
  j_once : NoDup (ids d);
  j_own : forall c p o, (c, p) ∈ l -> MemModel.owner c = Some o -> is_Some (h !! o);
  j_in : forall t o p, (t, o, p) ∈ d -> p <> PDrain -> forall q, (CIn o, q) ∉ l;
  j_free : forall t o, (t, o, PFree) ∈ d -> forall c q, MemModel.owner c = Some o -> (c, q) ∉ l;
  j_next : forall o, is_Some (h !! o) -> o < n;
  j_inner : forall o o', (CField o FInner, Some o') ∈ l -> o' < o /\ forall b, h !! o = Some b -> o_kind b <> KActor;
  j_child : forall o o', (CField o FChild, Some o') ∈ l -> o < o' /\ exists b, h !! o' = Some b /\ o_kind b = KActor
}.
Definition JS (s : mem) : Prop := J (heap s) (ptrs s) (dying s) (next s).

Lemma pointers_cons o e l : pointers o (e :: l) = ((if bool_decide (e.2 = Some o) then 1 else 0) + pointers o l)%nat.
Proof. unfold pointers. rewrite filter_cons. case_bool_decide as H; [rewrite decide_True by done | rewrite decide_False by done]; done. Qed.
Lemma pointers_perm o l l' : l ≡ₚ l' -> pointers o l = pointers o l'.
Proof. intros H. unfold pointers. by rewrite H. Qed.
Lemma pointers_pos o l c : (c, Some o) ∈ l -> pointers o l <> 0%nat.
Proof.
  intros Hin. unfold pointers. intros H0. apply nil_length_inv in H0.
  assert (Hx : (c, Some o) ∈ ([] : list entry)) by (rewrite <- H0; by apply elem_of_list_filter).
  by apply elem_of_nil in Hx.
Qed.
Lemma pointers_zero o l : pointers o l = 0%nat -> forall c, (c, Some o) ∉ l.
Proof. intros H0 c Hin. by apply (pointers_pos _ _ _ Hin). Qed.
Lemma pointers_some o l : pointers o l <> 0%nat -> exists c, (c, Some o) ∈ l.
Proof.
  induction l as [|[c p] l IH]; [done|]. rewrite pointers_cons. simpl. case_bool_decide as Hp.
  - intros _. exists c. rewrite Hp. by left.
  - intros H. destruct IH as [c' Hc']; [done|]. exists c'. by right.
Qed.

Lemma J_perm h l l' d d' n : l ≡ₚ l' -> d ≡ₚ d' -> J h l d n -> J h l' d' n.
Proof.
  intros Hl Hd []. assert (Hi : ids d ≡ₚ ids d') by (unfold ids; by rewrite Hd).
  split.
  - intros o b Hb. rewrite <- (pointers_perm o _ _ Hl). eauto.
  - intros c o Hin. apply (j_live0 c). by rewrite Hl.
  - intros o. rewrite <- Hi. apply j_die0.
  - by rewrite <- Hi.
  - intros c p o Hin. apply (j_own0 c p). by rewrite Hl.
  - intros t o p Hin Hp q Hq. rewrite <- Hl in Hq. rewrite <- Hd in Hin. by apply (j_in0 t o p Hin Hp q).
  - intros t o Hin c q Hc Hq. rewrite <- Hl in Hq. rewrite <- Hd in Hin. by apply (j_free0 t o Hin c q Hc).
  - done.
  - intros o o' Hin. apply j_inner0. by rewrite Hl.
  - intros o o' Hin. apply j_child0. by rewrite Hl.
Qed.

(** A pointer goes, and the counter with it. *)
Definition down (h : gmap N obj) (d : list (N * N * phase)) (t o : N) : option (gmap N obj * list (N * N * phase)) :=
  match h !! o with
  | Some b => if o_cnt b =? 1 then Some (<[o := Obj (o_kind b) 0 (o_route b)]> h, (t, o, PDrain) :: d)
              else Some (<[o := Obj (o_kind b) (o_cnt b - 1) (o_route b)]> h, d)
  | None => None
  end.
Lemma J_weak h e l d n : J h (e :: l) d n ->
  (forall c o, (c, Some o) ∈ l -> is_Some (h !! o)) /\
  (forall c p o, (c, p) ∈ l -> MemModel.owner c = Some o -> is_Some (h !! o)) /\
  (forall t o p, (t, o, p) ∈ d -> p <> PDrain -> forall q, (CIn o, q) ∉ l) /\
  (forall t o, (t, o, PFree) ∈ d -> forall c q, MemModel.owner c = Some o -> (c, q) ∉ l).
Proof.
  intros []. split_and!.
  - intros c o Hin. apply (j_live0 c). by right.
  - intros c p o Hin. apply (j_own0 c p). by right.
  - intros t o p Hin Hp q Hq. apply (j_in0 t o p Hin Hp q). by right.
  - intros t o Hin c q Hc Hq. apply (j_free0 t o Hin c q Hc). by right.
Qed.
Lemma J_drop_null h c l d n : J h ((c, None) :: l) d n -> J h l d n.
Proof.
  intros HJ. destruct (J_weak _ _ _ _ _ HJ) as (H1 & H2 & H3 & H4). destruct HJ. split; try done.
  - intros o o' Hin. apply j_inner0. by right.
  - intros o o' Hin. apply j_child0. by right.
Qed.
Lemma J_release h c o l d n t : J h ((c, Some o) :: l) d n ->
  exists b, h !! o = Some b /\ o_cnt b <> 0 /\
    J (<[o := Obj (o_kind b) (o_cnt b - 1) (o_route b)]> h) l (if o_cnt b =? 1 then (t, o, PDrain) :: d else d) n.
Proof.
  intros HJ. destruct (J_weak _ _ _ _ _ HJ) as (H1 & H2 & H3 & H4). destruct HJ.
  destruct (j_live0 c o) as [b Hb]; [by left|]. exists b. split; [done|].
  pose proof (j_cnt0 o b Hb) as Hc. rewrite pointers_cons in Hc. simpl in Hc. rewrite bool_decide_eq_true_2 in Hc by done.
  split; [lia|].
  set (h' := <[o := Obj (o_kind b) (o_cnt b - 1) (o_route b)]> h).
  assert (Hk : forall o1 b1, h' !! o1 = Some b1 -> exists b0, h !! o1 = Some b0 /\ o_kind b0 = o_kind b1).
  { intros o1 b1 Hb1. unfold h' in Hb1. destruct (decide (o = o1)) as [->|Hne].
    - rewrite lookup_insert in Hb1. injection Hb1 as <-. by exists b.
    - rewrite lookup_insert_ne in Hb1 by done. by exists b1. }
  assert (Hk' : forall o1, is_Some (h !! o1) -> is_Some (h' !! o1)) by (intros o1 Ho1; unfold h'; apply lookup_insert_is_Some; destruct (decide (o = o1)); auto).
  split.
  - intros o1 b1 Hb1. unfold h' in Hb1. destruct (decide (o = o1)) as [->|Hne].
    + rewrite lookup_insert in Hb1. injection Hb1 as <-. simpl. lia.
    + rewrite lookup_insert_ne in Hb1 by done. rewrite (j_cnt0 o1 b1 Hb1), pointers_cons. simpl. rewrite bool_decide_eq_false_2 by congruence. done.
  - intros c1 o1 Hin. eauto.
  - intros o1. unfold h'. destruct (decide (o = o1)) as [->|Hne].
    + rewrite lookup_insert. destruct (N.eqb_spec (o_cnt b) 1) as [He|He].
      * split; [|intros _; by left]. intros _. eexists. split; [done|]. simpl. lia.
      * rewrite j_die0. split; [intros (b1 & Hb1 & Hz); rewrite Hb in Hb1; injection Hb1 as <-; lia|].
        intros (b1 & [= <-] & Hz). simpl in Hz. lia.
    + rewrite lookup_insert_ne by done. rewrite <- j_die0. destruct (o_cnt b =? 1); [|done].
      simpl. rewrite elem_of_cons. split; [intros [Hx|Hx]; [simpl in Hx; congruence | done] | by right].
  - destruct (N.eqb_spec (o_cnt b) 1) as [He|He]; [|done]. simpl. constructor; [|done].
    rewrite j_die0. intros (b1 & Hb1 & Hz). rewrite Hb in Hb1. injection Hb1 as <-. lia.
  - intros c1 p o1 Hin Ho. eauto.
  - intros t1 o1 p Hin Hp. apply (H3 t1 o1 p); [|done]. destruct (o_cnt b =? 1); [|done].
    apply elem_of_cons in Hin as [Hx|Hx]; [congruence | done].
  - intros t1 o1 Hin. apply (H4 t1 o1). destruct (o_cnt b =? 1); [|done].
    apply elem_of_cons in Hin as [Hx|Hx]; [congruence | done].
  - intros o1 Ho1. apply j_next0. unfold h' in Ho1. apply lookup_insert_is_Some in Ho1 as [<-|[_ ?]]; [by exists b | done].
  - intros o1 o2 Hin. destruct (j_inner0 o1 o2) as [Hlt Hki]; [by right|]. split; [done|].
    intros b1 Hb1. destruct (Hk o1 b1 Hb1) as (b0 & Hb0 & <-). by apply Hki.
  - intros o1 o2 Hin. destruct (j_child0 o1 o2) as [Hlt (b2 & Hb2 & Hki)]; [by right|]. split; [done|].
    unfold h'. destruct (decide (o = o2)) as [->|Hne].
    + rewrite lookup_insert. eexists. split; [done|]. simpl. congruence.
    + rewrite lookup_insert_ne by done. by exists b2.
Qed.

(** A place which may take a pointer to [o]: its object is alive. *)
Definition room (h : gmap N obj) (c : cell) (o : N) : Prop :=
  (forall p, MemModel.owner c = Some p -> exists b, h !! p = Some b /\ o_cnt b <> 0) /\
  (forall p, c = CField p FInner -> o < p /\ forall b, h !! p = Some b -> o_kind b <> KActor) /\
  (forall p, c = CField p FChild -> p < o /\ exists b, h !! o = Some b /\ o_kind b = KActor).
Lemma not_dying h l d n p b : J h l d n -> h !! p = Some b -> o_cnt b <> 0 -> forall t ph, (t, p, ph) ∉ d.
Proof.
  intros HJ Hb Hne t ph Hin. destruct (proj1 (j_die _ _ _ _ HJ p)) as (b' & Hb' & Hz); [|congruence].
  unfold ids. apply elem_of_list_fmap. by exists (t, p, ph).
Qed.
Lemma J_move h c c' o l d n : J h ((c, Some o) :: l) d n -> room h c' o -> J h ((c', Some o) :: l) d n.
Proof.
  intros HJ (Hr1 & Hr2 & Hr3). destruct (J_weak _ _ _ _ _ HJ) as (H1 & H2 & H3 & H4). pose proof HJ as HJ0. destruct HJ. split; try done.
  - intros o1 b Hb. rewrite (j_cnt0 o1 b Hb), !pointers_cons. done.
  - intros c1 o1 Hin. apply elem_of_cons in Hin as [[= -> ->]|Hin]; [|eauto]. apply (j_live0 c). by left.
  - intros c1 p o1 Hin Ho. apply elem_of_cons in Hin as [[= -> ->]|Hin]; [|eauto].
    destruct (Hr1 _ Ho) as (b & Hb & _). by exists b.
  - intros t o1 p Hin Hp q Hq. apply elem_of_cons in Hq as [[= <- ->]|Hq]; [|by apply (H3 t o1 p Hin Hp q)].
    destruct (Hr1 o1 eq_refl) as (b & Hb & Hne). by apply (not_dying _ _ _ _ _ _ HJ0 Hb Hne t p).
  - intros t o1 Hin c1 q Hc Hq. apply elem_of_cons in Hq as [[= <- ->]|Hq]; [|by apply (H4 t o1 Hin c1 q)].
    destruct (Hr1 o1 Hc) as (b & Hb & Hne). by apply (not_dying _ _ _ _ _ _ HJ0 Hb Hne t PFree).
  - intros o1 o2 Hin. apply elem_of_cons in Hin as [[= <- ->]|Hin]; [by apply Hr2 | apply j_inner0; by right].
  - intros o1 o2 Hin. apply elem_of_cons in Hin as [[= <- ->]|Hin]; [by apply Hr3 | apply j_child0; by right].
Qed.
Lemma J_null h c l d n : J h l d n -> (forall p, MemModel.owner c = Some p -> exists b, h !! p = Some b /\ o_cnt b <> 0) -> J h ((c, None) :: l) d n.
Proof.
  intros HJ Hr1. pose proof HJ as HJ0. destruct HJ. split; try done.
  - intros c1 o1 Hin. apply elem_of_cons in Hin as [[=]|Hin]. eauto.
  - intros c1 p o1 Hin Ho. apply elem_of_cons in Hin as [[= -> ->]|Hin]; [|eauto].
    destruct (Hr1 _ Ho) as (b & Hb & _). by exists b.
  - intros t o1 p Hin Hp q Hq. apply elem_of_cons in Hq as [[= <- ->]|Hq]; [|by apply (j_in0 t o1 p Hin Hp q)].
    destruct (Hr1 o1 eq_refl) as (b & Hb & Hne). by apply (not_dying _ _ _ _ _ _ HJ0 Hb Hne t p).
  - intros t o1 Hin c1 q Hc Hq. apply elem_of_cons in Hq as [[= <- ->]|Hq]; [|by apply (j_free0 t o1 Hin c1 q)].
    destruct (Hr1 o1 Hc) as (b & Hb & Hne). by apply (not_dying _ _ _ _ _ _ HJ0 Hb Hne t PFree).
  - intros o1 o2 Hin. apply elem_of_cons in Hin as [[=]|Hin]. by apply j_inner0.
  - intros o1 o2 Hin. apply elem_of_cons in Hin as [[=]|Hin]. by apply j_child0.
Qed.
Lemma J_copy h c o b l d n : J h l d n -> h !! o = Some b -> o_cnt b <> 0 -> room h c o ->
  J (<[o := Obj (o_kind b) (o_cnt b + 1) (o_route b)]> h) ((c, Some o) :: l) d n.
Proof.
  intros HJ Hb Hnz (Hr1 & Hr2 & Hr3). pose proof HJ as HJ0. destruct HJ.
  set (h' := <[o := Obj (o_kind b) (o_cnt b + 1) (o_route b)]> h).
  assert (Hk : forall o1 b1, h' !! o1 = Some b1 -> exists b0, h !! o1 = Some b0 /\ o_kind b0 = o_kind b1).
  { intros o1 b1 Hb1. unfold h' in Hb1. destruct (decide (o = o1)) as [->|Hne].
    - rewrite lookup_insert in Hb1. injection Hb1 as <-. by exists b.
    - rewrite lookup_insert_ne in Hb1 by done. by exists b1. }
  assert (Hk2 : forall o1 b0, h !! o1 = Some b0 -> exists b1, h' !! o1 = Some b1 /\ o_kind b0 = o_kind b1).
  { intros o1 b1 Hb1. unfold h'. destruct (decide (o = o1)) as [->|Hne].
    - rewrite lookup_insert. eexists. split; [done|]. simpl. congruence.
    - rewrite lookup_insert_ne by done. by exists b1. }
  assert (Hk' : forall o1, is_Some (h !! o1) -> is_Some (h' !! o1)) by (intros o1 [b0 Hb0]; destruct (Hk2 _ _ Hb0) as (b1 & Hb1 & _); by exists b1).
  split.
  - intros o1 b1 Hb1. unfold h' in Hb1. rewrite pointers_cons. simpl. destruct (decide (o = o1)) as [->|Hne].
    + rewrite lookup_insert in Hb1. injection Hb1 as <-. rewrite bool_decide_eq_true_2 by done. simpl. rewrite (j_cnt0 _ _ Hb). lia.
    + rewrite lookup_insert_ne in Hb1 by done. rewrite bool_decide_eq_false_2 by congruence. by apply j_cnt0.
  - intros c1 o1 Hin. apply Hk'. apply elem_of_cons in Hin as [[= -> ->]|Hin]; [by exists b | eauto].
  - intros o1. rewrite j_die0. unfold h'. destruct (decide (o = o1)) as [->|Hne].
    + rewrite lookup_insert. split; [intros (b1 & Hb1 & Hz); congruence | intros (b1 & [= <-] & Hz); simpl in Hz; lia].
    + by rewrite lookup_insert_ne.
  - done.
  - intros c1 p o1 Hin Ho. apply Hk'. apply elem_of_cons in Hin as [[= -> ->]|Hin]; [|eauto].
    destruct (Hr1 _ Ho) as (b1 & Hb1 & _). by exists b1.
  - intros t o1 p Hin Hp q Hq. apply elem_of_cons in Hq as [[= <- ->]|Hq]; [|by apply (j_in0 t o1 p Hin Hp q)].
    destruct (Hr1 o1 eq_refl) as (b1 & Hb1 & Hne). by apply (not_dying _ _ _ _ _ _ HJ0 Hb1 Hne t p).
  - intros t o1 Hin c1 q Hc Hq. apply elem_of_cons in Hq as [[= <- ->]|Hq]; [|by apply (j_free0 t o1 Hin c1 q)].
    destruct (Hr1 o1 Hc) as (b1 & Hb1 & Hne). by apply (not_dying _ _ _ _ _ _ HJ0 Hb1 Hne t PFree).
  - intros o1 Ho1. apply j_next0. destruct Ho1 as [b1 Hb1]. destruct (Hk _ _ Hb1) as (b0 & Hb0 & _). by exists b0.
  - intros o1 o2 Hin. apply elem_of_cons in Hin as [[= <- ->]|Hin].
    + destruct (Hr2 _ eq_refl) as [Hlt Hki]. split; [done|]. intros b1 Hb1. destruct (Hk _ _ Hb1) as (b0 & Hb0 & <-). by apply Hki.
    + destruct (j_inner0 o1 o2 Hin) as [Hlt Hki]. split; [done|]. intros b1 Hb1. destruct (Hk _ _ Hb1) as (b0 & Hb0 & <-). by apply Hki.
  - intros o1 o2 Hin. assert (Hq : o1 < o2 /\ exists b2, h !! o2 = Some b2 /\ o_kind b2 = KActor).
    { apply elem_of_cons in Hin as [[= <- ->]|Hin]; [by apply Hr3 | by apply j_child0]. }
    destruct Hq as (Hlt & b2 & Hb2 & Hki). split; [done|]. destruct (Hk2 _ _ Hb2) as (b1 & Hb1 & He). exists b1. split; [done | congruence].
Qed.
Lemma J_alloc h l d n k r c : J h l d n -> MemModel.owner c = None -> J (<[n := Obj k 1 r]> h) ((c, Some n) :: l) d (n + 1).
Proof.
  intros HJ Hc. pose proof HJ as HJ0. destruct HJ.
  assert (Hn : h !! n = None). { destruct (h !! n) as [b|] eqn:Hb; [|done]. assert (n < n) by (apply j_next0; by exists b). lia. }
  assert (Hne : forall o, is_Some (h !! o) -> n <> o) by (intros o Ho ->; rewrite Hn in Ho; by destruct Ho).
  assert (Hk' : forall o1, is_Some (h !! o1) -> is_Some (<[n := Obj k 1 r]> h !! o1)) by (intros o1 Ho1; apply lookup_insert_is_Some; destruct (decide (n = o1)); auto).
  split.
  - intros o b Hb. rewrite pointers_cons. simpl. destruct (decide (n = o)) as [->|Hno].
    + rewrite lookup_insert in Hb. injection Hb as <-. rewrite bool_decide_eq_true_2 by done. simpl.
      assert (H0 : pointers o l = 0%nat). { destruct (decide (pointers o l = 0%nat)) as [|Hp]; [done|]. apply pointers_some in Hp as [c1 Hin]. apply j_live0 in Hin. rewrite Hn in Hin. by destruct Hin. }
      rewrite H0. done.
    + rewrite lookup_insert_ne in Hb by done. rewrite bool_decide_eq_false_2 by congruence. by apply j_cnt0.
  - intros c1 o1 Hin. apply elem_of_cons in Hin as [[= -> ->]|Hin]; [rewrite lookup_insert; by eexists | eauto].
  - intros o. rewrite j_die0. destruct (decide (n = o)) as [->|Hno].
    + rewrite lookup_insert. split; [intros (b & Hb & _); congruence | intros (b & [= <-] & Hz); simpl in Hz; lia].
    + by rewrite lookup_insert_ne.
  - done.
  - intros c1 p o1 Hin Ho. apply elem_of_cons in Hin as [[= -> ->]|Hin]; [congruence | eauto].
  - intros t o p Hin Hp q Hq. apply elem_of_cons in Hq as [[= <- ->]|Hq]; [done | by apply (j_in0 t o p Hin Hp q)].
  - intros t o Hin c1 q Hc1 Hq. apply elem_of_cons in Hq as [[= <- ->]|Hq]; [congruence | by apply (j_free0 t o Hin c1 q)].
  - intros o Ho. apply lookup_insert_is_Some in Ho as [<-|[_ Ho]]; [lia|]. apply j_next0 in Ho. lia.
  - intros o o' Hin. apply elem_of_cons in Hin as [[= <- ->]|Hin]; [done|]. destruct (j_inner0 o o' Hin) as [Hlt Hki]. split; [done|].
    intros b Hb. rewrite lookup_insert_ne in Hb; [by apply Hki|]. apply Hne. by apply (j_own0 _ _ _ Hin).
  - intros o o' Hin. apply elem_of_cons in Hin as [[= <- ->]|Hin]; [done|]. destruct (j_child0 o o' Hin) as [Hlt (b & Hb & Hki)]. split; [done|].
    exists b. split; [|done]. rewrite lookup_insert_ne; [done|]. apply Hne. by exists b.
Qed.

(** What is not the counter or the kind does not matter. *)
Lemma J_route h l d n o b r : J h l d n -> h !! o = Some b -> J (<[o := Obj (o_kind b) (o_cnt b) r]> h) l d n.
Proof.
  intros HJ Hb. destruct HJ. set (h' := <[o := Obj (o_kind b) (o_cnt b) r]> h).
  assert (Hk : forall o1 b1, h' !! o1 = Some b1 -> exists b0, h !! o1 = Some b0 /\ o_kind b0 = o_kind b1 /\ o_cnt b0 = o_cnt b1).
  { intros o1 b1 Hb1. unfold h' in Hb1. destruct (decide (o = o1)) as [->|Hne].
    - rewrite lookup_insert in Hb1. injection Hb1 as <-. by exists b.
    - rewrite lookup_insert_ne in Hb1 by done. by exists b1. }
  assert (Hk2 : forall o1 b0, h !! o1 = Some b0 -> exists b1, h' !! o1 = Some b1 /\ o_kind b0 = o_kind b1 /\ o_cnt b0 = o_cnt b1).
  { intros o1 b1 Hb1. unfold h'. destruct (decide (o = o1)) as [->|Hne].
    - rewrite lookup_insert. eexists. split; [done|]. simpl. split; congruence.
    - rewrite lookup_insert_ne by done. by exists b1. }
  assert (Hs : forall o1, is_Some (h !! o1) -> is_Some (h' !! o1)) by (intros o1 [b1 Hb1]; destruct (Hk2 _ _ Hb1) as (b2 & Hb2 & _); by exists b2).
  split.
  - intros o1 b1 Hb1. destruct (Hk _ _ Hb1) as (b0 & Hb0 & _ & <-). by apply j_cnt0.
  - intros c o1 Hin. eauto.
  - intros o1. rewrite j_die0. split.
    + intros (b0 & Hb0 & Hz). destruct (Hk2 _ _ Hb0) as (b1 & Hb1 & _ & He). exists b1. split; [done | congruence].
    + intros (b1 & Hb1 & Hz). destruct (Hk _ _ Hb1) as (b0 & Hb0 & _ & He). exists b0. split; [done | congruence].
  - done.
  - intros c p o1 Hin Ho. eauto.
  - done.
  - done.
  - intros o1 [b1 Hb1]. destruct (Hk _ _ Hb1) as (b0 & Hb0 & _). apply j_next0. by exists b0.
  - intros o1 o2 Hin. destruct (j_inner0 _ _ Hin) as [Hlt Hki]. split; [done|]. intros b1 Hb1. destruct (Hk _ _ Hb1) as (b0 & Hb0 & <- & _). by apply Hki.
  - intros o1 o2 Hin. destruct (j_child0 _ _ Hin) as [Hlt (b2 & Hb2 & Hki)]. split; [done|]. destruct (Hk2 _ _ Hb2) as (b1 & Hb1 & He & _). exists b1. split; [done | congruence].
Qed.

(** A destructor goes on. *)
Lemma J_phase_route h l d n t o : J h l ((t, o, PDrain) :: d) n -> (forall q, (CIn o, q) ∉ l) -> J h l ((t, o, PRoute) :: d) n.
Proof.
  intros HJ Hq. destruct HJ. split; try done.
  - intros t1 o1 p Hin Hp. apply elem_of_cons in Hin as [[= -> -> ->]|Hin]; [done|]. apply (j_in0 t1 o1 p); [by right | done].
  - intros t1 o1 Hin. apply elem_of_cons in Hin as [[=]|Hin]. apply (j_free0 t1 o1). by right.
Qed.
Lemma J_phase_members h l d n t o : J h l ((t, o, PRoute) :: d) n -> J h l ((t, o, PMembers) :: d) n.
Proof.
  intros HJ. destruct HJ. split; try done.
  - intros t1 o1 p Hin Hp. apply elem_of_cons in Hin as [[= -> -> ->]|Hin]; [apply (j_in0 t o PRoute); [by left | done]|]. apply (j_in0 t1 o1 p); [by right | done].
  - intros t1 o1 Hin. apply elem_of_cons in Hin as [[=]|Hin]. apply (j_free0 t1 o1). by right.
Qed.
Lemma J_phase_free h l d n t o : J h l ((t, o, PMembers) :: d) n -> (forall c q, MemModel.owner c = Some o -> c <> CIn o -> (c, q) ∉ l) -> J h l ((t, o, PFree) :: d) n.
Proof.
  intros HJ Hq. destruct HJ. split; try done.
  - intros t1 o1 p Hin Hp. apply elem_of_cons in Hin as [[= -> -> ->]|Hin]; [apply (j_in0 t o PMembers); [by left | done]|]. apply (j_in0 t1 o1 p); [by right | done].
  - intros t1 o1 Hin c q Hc. apply elem_of_cons in Hin as [[= -> ->]|Hin].
    + destruct (decide (c = CIn o)) as [->|Hne]; [apply (j_in0 t o PMembers); [by left | done] | by apply Hq].
    + apply (j_free0 t1 o1); [by right | done].
Qed.
Lemma J_freed h l d n t o : J h l ((t, o, PFree) :: d) n -> J (delete o h) l d n.
Proof.
  intros HJ. destruct HJ.
  assert (Ho : exists b, h !! o = Some b /\ o_cnt b = 0) by (apply j_die0; by left).
  destruct Ho as (b & Hb & Hz).
  assert (Hno : o ∉ ids d) by by apply NoDup_cons in j_once0 as [? _].
  assert (H0 : forall c, (c, Some o) ∉ l). { apply pointers_zero. pose proof (j_cnt0 o b Hb). lia. }
  assert (Hk : forall o1 b1, delete o h !! o1 = Some b1 -> h !! o1 = Some b1 /\ o <> o1).
  { intros o1 b1 Hb1. apply lookup_delete_Some in Hb1. tauto. }
  split.
  - intros o1 b1 Hb1. apply Hk in Hb1 as [Hb1 _]. by apply j_cnt0.
  - intros c o1 Hin. rewrite lookup_delete_ne; [eauto|]. intros <-. by apply (H0 c).
  - intros o1. destruct (decide (o = o1)) as [<-|Hne].
    + rewrite lookup_delete. split; [done | intros (b1 & [=] & _)].
    + rewrite lookup_delete_ne by done. rewrite <- j_die0. simpl. rewrite elem_of_cons. split; [by right | intros [Hx|Hx]; [simpl in Hx; congruence | done]].
  - by apply NoDup_cons in j_once0 as [_ ?].
  - intros c p o1 Hin Hc. rewrite lookup_delete_ne; [eauto|]. intros <-. apply (j_free0 t o) in Hin; [done | by left | done].
  - intros t1 o1 p Hin. apply (j_in0 t1 o1 p). by right.
  - intros t1 o1 Hin. apply (j_free0 t1 o1). by right.
  - intros o1 [b1 Hb1]. apply j_next0. apply Hk in Hb1 as [Hb1 _]. by exists b1.
  - intros o1 o2 Hin. destruct (j_inner0 _ _ Hin) as [Hlt Hki]. split; [done|]. intros b1 Hb1. apply Hki. by apply Hk in Hb1 as [? _].
  - intros o1 o2 Hin. destruct (j_child0 _ _ Hin) as [Hlt (b2 & Hb2 & Hki)]. split; [done|]. exists b2. split; [|done].
    rewrite lookup_delete_ne; [done|]. intros <-. by apply (H0 (CField o1 FChild)).
Qed.
Lemma J_init : JS minit.
Proof.
  split; simpl; try done; try (intros; by apply not_elem_of_nil in H || idtac).
  all: try (intros; match goal with H : _ ∈ [] |- _ => by apply elem_of_nil in H end).
  - intros o. split; [intros H; by apply elem_of_nil in H | intros (b & Hb & _); by rewrite lookup_empty in Hb].
  - constructor.
  - intros o [b Hb]. by rewrite lookup_empty in Hb.
Qed.
