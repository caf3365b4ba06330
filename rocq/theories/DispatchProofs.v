(** Invariant of deliveries. *)
From stdpp Require Import base list gmap.
From Verif Require Import Base DispatchModel DispatchSpec.
Open Scope N_scope.

Section proofs.
Context (grow : nat -> nat).
Notation dstep := (dstep grow).
Implicit Type k : N.

Definition quiet (e : devent) : Prop := match e with EStart _ | EDone _ => False | _ => True end.
Definition served (evA : list devent) k (evB : list devent) : Prop :=
  calls evB = of_key k true (subscribers evA) /\ forwards evB = of_key k false (subscribers evA).
Definition done_ok (ev : list devent) : Prop := forall evA k evB k' evC, ev = evA ++ EStart k :: evB ++ EDone k' :: evC -> Forall quiet evB -> k' = k /\ served evA k evB.

Definition loop_ok (s : dstate) (ev : list devent) : Prop :=
  match d_loop s with
  | None => True
  | Some l => exists evA evB, ev = evA ++ EStart (l_key l) :: evB /\ Forall quiet evB /\
      let plan := of_key (l_key l) true (subscribers evA) in
      length plan = l_end l /\ (l_next l <= l_end l)%nat /\ calls evB = take (l_next l) plan /\ forwards evB = of_key (l_key l) false (subscribers evA) /\
      ((l_next l < l_end l)%nat -> exists j buf, d_mine s !! l_key l = Some j /\ j_buf j = l_buf l /\ d_heap s !! l_buf l = Some buf /\ b_elems buf = plan)
  end.

Record dinv (s : dstate) (ev : list devent) : Prop := {
  i_in : forall k, of_key k true (subscribers ev) = inner s k;
  i_out : forall k, of_key k false (subscribers ev) = outer s k;
  i_dup : NoDup (snd <$> subscribers ev);
  i_alive : forall h, h ∈ d_alive s <-> h ∈ snd <$> subscribers ev;
  i_next : forall h, h ∈ snd <$> subscribers ev -> h < d_next s;
  i_buf : forall k j, d_mine s !! k = Some j -> exists buf, d_heap s !! j_buf j = Some buf /\ j_buf j < d_next s;
  i_own : forall k1 k2 j1 j2, d_mine s !! k1 = Some j1 -> d_mine s !! k2 = Some j2 -> j_buf j1 = j_buf j2 -> k1 = k2;
  i_loop : loop_ok s ev;
  i_done : done_ok ev }.

Lemma subscribers_app e1 e2 : subscribers (e1 ++ e2) = foldl sub_step (subscribers e1) e2.
Proof. unfold subscribers. by rewrite foldl_app. Qed.
Lemma of_key_app k i l1 l2 : of_key k i (l1 ++ l2) = of_key k i l1 ++ of_key k i l2.
Proof. unfold of_key. by rewrite omap_app. Qed.
Lemma of_key_cons k i k1 i1 h1 l : of_key k i ((k1, i1, h1) :: l) = if (k1 =? k) && Bool.eqb i1 i then h1 :: of_key k i l else of_key k i l.
Proof. unfold of_key. cbn. by destruct (_ && _). Qed.
Lemma of_key_filter k i h l : of_key k i (List.filter (fun x => negb (x.2 =? h)) l) = List.filter (fun x => negb (x =? h)) (of_key k i l).
Proof.
  induction l as [|[[k1 i1] h1] l IH]; [done|]. rewrite of_key_cons. cbn [List.filter snd]. destruct (h1 =? h) eqn:Hh; cbn [negb]; rewrite ?of_key_cons;
    destruct ((k1 =? k) && Bool.eqb i1 i); cbn; rewrite ?Hh; cbn; by rewrite IH.
Qed.
Lemma of_key_in k i h l : h ∈ of_key k i l <-> (k, i, h) ∈ l.
Proof.
  unfold of_key. rewrite elem_of_list_omap. split.
  - intros ([[k1 i1] h1] & Hx & He). cbn in He. destruct (N.eqb_spec k1 k), (Bool.eqb_spec i1 i); cbn in He; try done. injection He as <-. by subst.
  - intros Hx. exists (k, i, h). split; [done|]. cbn. by rewrite N.eqb_refl, Bool.eqb_reflx.
Qed.
Lemma snd_of_key k i h l : h ∈ of_key k i l -> h ∈ snd <$> l.
Proof. intros H%of_key_in. apply elem_of_list_fmap. by exists (k, i, h). Qed.
Lemma of_key_nodup k i l : NoDup (snd <$> l) -> NoDup (of_key k i l).
Proof.
  induction l as [|[[k1 i1] h1] l IH]; intros H; [constructor|]. cbn in H. apply NoDup_cons in H as [H1 H2]. rewrite of_key_cons.
  destruct (_ && _); [|auto]. apply NoDup_cons. split; [|auto]. intros Hx. by apply snd_of_key in Hx.
Qed.
(** One handler has one key. *)
Lemma one_key k1 i1 k2 i2 h l : NoDup (snd <$> l) -> h ∈ of_key k1 i1 l -> h ∈ of_key k2 i2 l -> k1 = k2 /\ i1 = i2.
Proof.
  intros Hd H1%of_key_in H2%of_key_in. induction l as [|x l IH]; [by apply elem_of_nil in H1|]. cbn in Hd. apply NoDup_cons in Hd as [Hx Hd].
  assert (Hin : forall a b, (a, b, h) ∈ l -> h ∈ snd <$> l) by (intros a b Hy; apply elem_of_list_fmap; by exists (a, b, h)).
  apply elem_of_cons in H1 as [H1|H1]; apply elem_of_cons in H2 as [H2|H2].
  - rewrite <-H1 in H2. by inversion H2.
  - subst x. by apply Hin in H2.
  - subst x. by apply Hin in H1.
  - auto.
Qed.
Lemma erase_some h l : h ∈ l -> exists l', erase h l = Some l'.
Proof.
  induction l as [|x l IH]; intros H; [by apply elem_of_nil in H|]. cbn. destruct (N.eqb_spec x h); [eauto|].
  apply elem_of_cons in H as [->|H]; [done|]. destruct (IH H) as [l' ->]. cbn. eauto.
Qed.
Lemma filter_id h l : h ∉ l -> List.filter (fun x => negb (x =? h)) l = l.
Proof. induction l as [|x l IH]; [done|]. rewrite not_elem_of_cons. intros [H1 H2]. cbn. destruct (N.eqb_spec x h); [by subst|]. cbn. by rewrite IH. Qed.
Lemma erase_filter h l l' : NoDup l -> erase h l = Some l' -> l' = List.filter (fun x => negb (x =? h)) l.
Proof.
  revert l'. induction l as [|x l IH]; intros l' Hd H; [done|]. apply NoDup_cons in Hd as [Hx Hd]. cbn in H |- *. destruct (N.eqb_spec x h) as [->|Hne]; cbn.
  - injection H as <-. by rewrite filter_id.
  - destruct (erase h l) as [m|] eqn:He; [|done]. cbn in H. injection H as <-. by rewrite (IH m).
Qed.
Lemma filter_snd h l : snd <$> List.filter (fun x : N * bool * N => negb (x.2 =? h)) l = List.filter (fun x => negb (x =? h)) (snd <$> l).
Proof. induction l as [|x l IH]; [done|]. cbn. destruct (x.2 =? h); cbn; by rewrite IH. Qed.
Lemma filter_in h x l : x ∈ List.filter (fun x => negb (x =? h)) l <-> x ∈ l /\ x <> h.
Proof. rewrite !elem_of_list_In, filter_In. split; intros [H1 H2]; split; try done; destruct (N.eqb_spec x h); done. Qed.
Lemma filter_nodup h (l : list N) : NoDup l -> NoDup (List.filter (fun x => negb (x =? h)) l).
Proof. intros H. apply NoDup_ListNoDup. apply List.NoDup_filter. by apply NoDup_ListNoDup. Qed.

(** ** The trace *)
Lemma done_more ev e : Forall (fun x => match x with EDone _ => False | _ => True end) e -> done_ok ev -> done_ok (ev ++ e).
Proof.
  intros He H evA k evB k' evC Heq HB. 
  assert (exists evC', evC = evC' ++ e /\ ev = evA ++ EStart k :: evB ++ EDone k' :: evC') as (evC' & -> & Hev).
  { clear H. revert evC Heq. induction e as [|x e IH] using rev_ind; intros evC Heq.
    - exists evC. rewrite app_nil_r in Heq |- *. done.
    - apply Forall_app in He as [He Hx]. apply Forall_cons in Hx as [Hx _]. destruct evC as [|y evC _] using rev_ind.
      + exfalso. rewrite app_assoc in Heq. change (evA ++ EStart k :: evB ++ [EDone k']) with (evA ++ (EStart k :: evB) ++ [EDone k']) in Heq. rewrite app_assoc in Heq.
        apply app_inj_tail in Heq as [_ ->]. done.
      + rewrite app_assoc in Heq. replace (evA ++ EStart k :: evB ++ EDone k' :: evC ++ [y]) with ((evA ++ EStart k :: evB ++ EDone k' :: evC) ++ [y]) in Heq
          by (by rewrite <-!app_assoc; cbn; rewrite <-!app_assoc).
        apply app_inj_tail in Heq as [Heq ->]. destruct (IH He evC Heq) as (evC' & -> & Hev). exists evC'. by rewrite <-app_assoc. }
  by eapply H.
Qed.
(** The last start of a trace is unique. *)
Lemma last_start a1 k1 b1 a2 k2 b2 : a1 ++ EStart k1 :: b1 = a2 ++ EStart k2 :: b2 -> Forall quiet b1 -> Forall quiet b2 -> a1 = a2 /\ k1 = k2 /\ b1 = b2.
Proof.
  revert b2. induction b1 as [|x b1 IH] using rev_ind; intros b2 H H1 H2.
  - destruct b2 as [|y b2 _] using rev_ind; [apply app_inj_tail in H as [-> H]; by injection H as ->|].
    change (a2 ++ EStart k2 :: b2 ++ [y]) with (a2 ++ (EStart k2 :: b2) ++ [y]) in H. rewrite app_assoc in H. apply app_inj_tail in H as [_ <-].
    apply Forall_app in H2 as [_ H2]. by apply Forall_cons in H2 as [[] _].
  - change (a1 ++ EStart k1 :: b1 ++ [x]) with (a1 ++ (EStart k1 :: b1) ++ [x]) in H. rewrite app_assoc in H. apply Forall_app in H1 as [H1 Hx].
    destruct b2 as [|y b2 _] using rev_ind.
    + apply app_inj_tail in H as [_ ->]. by apply Forall_cons in Hx as [[] _].
    + change (a2 ++ EStart k2 :: b2 ++ [y]) with (a2 ++ (EStart k2 :: b2) ++ [y]) in H. rewrite app_assoc in H. apply app_inj_tail in H as [H ->].
      apply Forall_app in H2 as [H2 _]. destruct (IH b2 H H1 H2) as (-> & -> & ->). done.
Qed.
Lemma done_end ev evA k evB : ev = evA ++ EStart k :: evB -> Forall quiet evB -> served evA k evB -> done_ok ev -> done_ok (ev ++ [EDone k]).
Proof.
  intros Hev HB Hs H evA' k1 evB' k' evC Heq HB'. destruct evC as [|y evC _] using rev_ind.
  - replace (evA' ++ EStart k1 :: evB' ++ [EDone k']) with ((evA' ++ EStart k1 :: evB') ++ [EDone k']) in Heq by (by rewrite <-app_assoc).
    apply app_inj_tail in Heq as [Heq Hk]. injection Hk as <-. rewrite Hev in Heq. apply last_start in Heq as (<- & <- & <-); done.
  - replace (evA' ++ EStart k1 :: evB' ++ EDone k' :: evC ++ [y]) with ((evA' ++ EStart k1 :: evB' ++ EDone k' :: evC) ++ [y]) in Heq
      by (by rewrite <-!app_assoc; cbn; rewrite <-!app_assoc).
    apply app_inj_tail in Heq as [Heq _]. by eapply H.
Qed.
Lemma calls_app e1 e2 : calls (e1 ++ e2) = calls e1 ++ calls e2.
Proof. unfold calls. by rewrite omap_app. Qed.
Lemma forwards_app e1 e2 : forwards (e1 ++ e2) = forwards e1 ++ forwards e2.
Proof. unfold forwards. by rewrite omap_app. Qed.
(** An event of a handler during a loop. *)
Lemma loop_more s s' ev x : loop_ok s ev -> d_loop s' = d_loop s -> match x with ESubscribed _ _ _ | EForgot _ _ => True | _ => False end ->
  (forall l, d_loop s = Some l -> (l_next l < l_end l)%nat -> forall j buf, d_mine s !! l_key l = Some j -> j_buf j = l_buf l -> d_heap s !! l_buf l = Some buf ->
     exists j', d_mine s' !! l_key l = Some j' /\ j_buf j' = l_buf l /\ d_heap s' !! l_buf l = Some buf) -> loop_ok s' (ev ++ [x]).
Proof.
  unfold loop_ok. intros H Hl Hx Hk. rewrite Hl. destruct (d_loop s) as [l|]; [|done]. destruct H as (evA & evB & -> & HB & H1 & H2 & H3 & H4 & H5).
  exists evA, (evB ++ [x]). split_and!; try done.
  - by rewrite <-app_assoc.
  - apply Forall_app. split; [done|]. constructor; [by destruct x|constructor].
  - rewrite calls_app, H3. destruct x; try done; cbn; by rewrite app_nil_r.
  - rewrite forwards_app, H4. destruct x; try done; cbn; by rewrite app_nil_r.
  - intros Hlt. destruct (H5 Hlt) as (j & buf & Hj & Hb & Hh & Hp). destruct (Hk l eq_refl Hlt j buf Hj Hb Hh) as (j' & Hj' & Hb' & Hh'). by exists j', buf.
Qed.

Lemma step_inv s ev o : dinv s ev -> calm s o -> exists s' e, dstep s o = Ok (s', e) /\ dinv s' (ev ++ e).
Proof.
  intros I Ho. pose proof I as [I1 I2 I3 I4 I5 I6 I7 I8 I9]. destruct o as [k internal|k internal h|k|]; cbn [DispatchModel.dstep].
  - (* materialize *)
    unfold materialize. set (h := d_next s) in *.
    assert (Hjh : exists j heap buf, (match d_mine s !! k with Some j => (j, d_heap s) | None => (Joint [] (h + 1), <[h + 1 := Buffer [] 0]> (d_heap s)) end) = (j, heap) /\
      heap !! j_buf j = Some buf /\ b_elems buf = inner s k /\ j_ext j = outer s k /\ j_buf j < h + 2 /\
      (forall k2 j2, d_mine s !! k2 = Some j2 -> j_buf j2 < h /\ heap !! j_buf j2 = d_heap s !! j_buf j2) /\
      (forall k2 j2, d_mine s !! k2 = Some j2 -> j_buf j2 = j_buf j -> k2 = k) /\ (d_mine s !! k = Some j \/ d_mine s !! k = None)).
    { unfold inner, outer. destruct (d_mine s !! k) as [j|] eqn:Hj.
      - destruct (I6 k j Hj) as (buf & Hb & Hlt). exists j, (d_heap s), buf. rewrite Hb. split_and!; try done; [lia| | |by left].
        + intros k2 j2 Hj2. by destruct (I6 k2 j2 Hj2) as (? & _ & ?).
        + intros k2 j2 Hj2 He. by eapply I7.
      - eexists _, _, _. split; [done|]. cbn. rewrite lookup_insert. split_and!; try done; [lia| | |by right].
        + intros k2 j2 Hj2. destruct (I6 k2 j2 Hj2) as (? & _ & Hlt). split; [done|]. rewrite lookup_insert_ne; [done|]. fold h in Hlt. lia.
        + intros k2 j2 Hj2 He. destruct (I6 k2 j2 Hj2) as (? & _ & Hlt). fold h in Hlt. lia. }
    destruct Hjh as (j & heap & buf & Heq & Hb & Hin & Hout & Hjb & Hold & Hown & Hj). rewrite Heq. cbn [fst snd].
    assert (Hfr : h ∉ snd <$> subscribers ev). { intros Hx. apply I5 in Hx. unfold h in Hx. lia. }
    assert (Hsub : forall i, subscribers (ev ++ [ESubscribed k i h]) = subscribers ev ++ [(k, i, h)]) by (intros i; by rewrite subscribers_app).
    assert (Hk : forall k2 i2 i, of_key k2 i2 [(k, i, h)] = if (k =? k2) && Bool.eqb i i2 then [h] else []) by (intros; by rewrite of_key_cons).
    assert (Hdup : forall i, NoDup (snd <$> subscribers (ev ++ [ESubscribed k i h]))).
    { intros i. rewrite Hsub, fmap_app. apply NoDup_app. split_and!; [done| |by apply NoDup_singleton]. intros x Hx Hy. apply elem_of_list_singleton in Hy. cbn in Hy. by subst. }
    assert (Hal : forall i x, x ∈ d_alive s ∪ {[h]} <-> x ∈ snd <$> subscribers (ev ++ [ESubscribed k i h])).
    { intros i x. rewrite Hsub, fmap_app, elem_of_app, elem_of_union, I4. cbn. by rewrite elem_of_list_singleton, elem_of_singleton. }
    assert (Hnx : forall i x, x ∈ snd <$> subscribers (ev ++ [ESubscribed k i h]) -> x < h + 3).
    { intros i x. rewrite Hsub, fmap_app, elem_of_app. cbn. intros [Hx|Hx]; [apply I5 in Hx; unfold h; lia|]. apply elem_of_list_singleton in Hx. subst. lia. }
    destruct internal; cbn [calm] in Ho.
    + rewrite Hb. unfold emplace_back. destruct (Nat.ltb_spec (length (b_elems buf)) (b_cap buf)) as [Hc|Hc]; eexists _, _; (split; [done|]).
      * split; cbn; try apply Hdup; try apply Hal; try apply Hnx; try done.
        -- intros k2. rewrite Hsub, of_key_app, Hk, I1. rewrite Bool.andb_true_r. destruct (N.eqb_spec k k2) as [<-|Hne].
           { rewrite <-Hin. unfold inner. cbn. rewrite lookup_insert. cbn. by rewrite lookup_insert. }
           unfold inner. cbn.
           rewrite lookup_insert_ne, app_nil_r by done. destruct (d_mine s !! k2) as [j2|] eqn:Hj2; [|done]. destruct (Hold k2 j2 Hj2) as [_ Ho2].
           rewrite lookup_insert_ne, Ho2; [done|]. intros He. apply Hne. symmetry. by apply (Hown k2 j2).
        -- intros k2. rewrite Hsub, of_key_app, Hk, I2. rewrite Bool.andb_false_r, app_nil_r. destruct (decide (k = k2)) as [<-|Hne].
           { rewrite <-Hout. unfold outer. cbn. by rewrite lookup_insert. }
           unfold outer. cbn.
           by rewrite lookup_insert_ne.
        -- intros k2 j2 Hj2. destruct (decide (k = k2)) as [->|Hne]; [rewrite lookup_insert in Hj2|rewrite lookup_insert_ne in Hj2 by done].
           { injection Hj2 as <-. cbn. rewrite lookup_insert. eexists. split; [done|lia]. }
           destruct (I6 k2 j2 Hj2) as (b2 & Hb2 & _). destruct (Hold k2 j2 Hj2) as [Hlt Ho2]. rewrite lookup_insert_ne; [|intros He; apply Hne; symmetry; by apply (Hown k2 j2)].
           exists b2. rewrite Ho2. split; [done|lia].
        -- intros k1 k2 j1 j2 H1 H2 He. destruct (decide (k = k1)) as [<-|Hn1]; destruct (decide (k = k2)) as [<-|Hn2]; try done.
           ++ rewrite lookup_insert in H1. rewrite lookup_insert_ne in H2 by done. injection H1 as <-. cbn in He. symmetry. by eapply Hown.
           ++ rewrite lookup_insert in H2. rewrite lookup_insert_ne in H1 by done. injection H2 as <-. cbn in He. by eapply Hown.
           ++ rewrite lookup_insert_ne in H1, H2 by done. by eapply I7.
        -- eapply loop_more; eauto. intros l Hl Hlt j2 buf2 Hj2 Hb2 Hh2. cbn.
           assert (Hne : k <> l_key l). { intros ->. apply Ho; [done|]. unfold busy. by rewrite Hl. }
           exists j2. rewrite lookup_insert_ne by done. split_and!; try done. destruct (Hold _ j2 Hj2) as [_ Ho2]. rewrite Hb2 in Ho2. rewrite lookup_insert_ne; [by rewrite Ho2|].
           intros He. apply Hne. symmetry. apply (Hown _ j2); [done|]. by rewrite Hb2.
        -- apply done_more; [by repeat constructor|done].
      * split; cbn; try apply Hdup; try apply Hal; try apply Hnx; try done.
        -- intros k2. rewrite Hsub, of_key_app, Hk, I1. rewrite Bool.andb_true_r. destruct (N.eqb_spec k k2) as [<-|Hne].
           { rewrite <-Hin. unfold inner. cbn. rewrite lookup_insert. cbn. by rewrite lookup_insert. }
           unfold inner. cbn.
           rewrite lookup_insert_ne, app_nil_r by done. destruct (d_mine s !! k2) as [j2|] eqn:Hj2; [|done]. destruct (Hold k2 j2 Hj2) as [Hlt Ho2].
           rewrite lookup_insert_ne by lia. rewrite lookup_delete_ne, Ho2; [done|]. intros He. apply Hne. symmetry. by apply (Hown k2 j2).
        -- intros k2. rewrite Hsub, of_key_app, Hk, I2. rewrite Bool.andb_false_r, app_nil_r. destruct (decide (k = k2)) as [<-|Hne].
           { rewrite <-Hout. unfold outer. cbn. by rewrite lookup_insert. }
           unfold outer. cbn.
           by rewrite lookup_insert_ne.
        -- intros k2 j2 Hj2. destruct (decide (k = k2)) as [->|Hne]; [rewrite lookup_insert in Hj2|rewrite lookup_insert_ne in Hj2 by done].
           { injection Hj2 as <-. cbn. rewrite lookup_insert. eexists. split; [done|lia]. }
           destruct (I6 k2 j2 Hj2) as (b2 & Hb2 & _). destruct (Hold k2 j2 Hj2) as [Hlt Ho2]. rewrite lookup_insert_ne by lia. rewrite lookup_delete_ne; [|intros He; apply Hne; symmetry; by apply (Hown k2 j2)].
           exists b2. rewrite Ho2. split; [done|lia].
        -- intros k1 k2 j1 j2 H1 H2 He. destruct (decide (k = k1)) as [<-|Hn1]; destruct (decide (k = k2)) as [<-|Hn2]; try done.
           ++ rewrite lookup_insert in H1. rewrite lookup_insert_ne in H2 by done. injection H1 as <-. cbn in He. destruct (Hold k2 j2 H2). lia.
           ++ rewrite lookup_insert in H2. rewrite lookup_insert_ne in H1 by done. injection H2 as <-. cbn in He. destruct (Hold k1 j1 H1). lia.
           ++ rewrite lookup_insert_ne in H1, H2 by done. by eapply I7.
        -- eapply loop_more; eauto. intros l Hl Hlt j2 buf2 Hj2 Hb2 Hh2. cbn.
           assert (Hne : k <> l_key l). { intros ->. apply Ho; [done|]. unfold busy. by rewrite Hl. }
           exists j2. rewrite lookup_insert_ne by done. split_and!; try done. destruct (Hold _ j2 Hj2) as [Hl2 Ho2]. rewrite Hb2 in Ho2, Hl2. rewrite lookup_insert_ne by lia. rewrite lookup_delete_ne; [by rewrite Ho2|].
           intros He. apply Hne. symmetry. apply (Hown _ j2); [done|]. by rewrite Hb2.
        -- apply done_more; [by repeat constructor|done].
    + eexists _, _. split; [done|]. split; cbn; try apply Hdup; try apply Hal; try apply Hnx; try done.
      * intros k2. rewrite Hsub, of_key_app, Hk, I1. rewrite Bool.andb_false_r, app_nil_r. destruct (decide (k = k2)) as [<-|Hne].
        { rewrite <-Hin. unfold inner. cbn. rewrite lookup_insert. cbn. by rewrite Hb. }
        unfold inner. cbn.
        rewrite lookup_insert_ne by done. destruct (d_mine s !! k2) as [j2|] eqn:Hj2; [|done]. by destruct (Hold k2 j2 Hj2) as [_ ->].
      * intros k2. rewrite Hsub, of_key_app, Hk, I2. rewrite Bool.andb_true_r. destruct (N.eqb_spec k k2) as [<-|Hne].
        { rewrite <-Hout. unfold outer. cbn. by rewrite lookup_insert. }
        unfold outer. cbn.
        by rewrite lookup_insert_ne, app_nil_r.
      * intros k2 j2 Hj2. destruct (decide (k = k2)) as [->|Hne]; [rewrite lookup_insert in Hj2|rewrite lookup_insert_ne in Hj2 by done].
        { injection Hj2 as <-. cbn. exists buf. split; [done|lia]. }
        destruct (I6 k2 j2 Hj2) as (b2 & Hb2 & _). destruct (Hold k2 j2 Hj2) as [Hlt Ho2]. exists b2. rewrite Ho2. split; [done|lia].
      * intros k1 k2 j1 j2 H1 H2 He. destruct (decide (k = k1)) as [<-|Hn1]; destruct (decide (k = k2)) as [<-|Hn2]; try done.
        -- rewrite lookup_insert in H1. rewrite lookup_insert_ne in H2 by done. injection H1 as <-. cbn in He. symmetry. by eapply Hown.
        -- rewrite lookup_insert in H2. rewrite lookup_insert_ne in H1 by done. injection H2 as <-. cbn in He. by eapply Hown.
        -- rewrite lookup_insert_ne in H1, H2 by done. by eapply I7.
      * eapply loop_more; eauto. intros l Hl Hlt j2 buf2 Hj2 Hb2 Hh2. cbn. destruct (decide (k = l_key l)) as [->|Hne].
        -- rewrite lookup_insert. eexists. split; [done|]. cbn. destruct Hj as [Hj|Hj]; [|congruence]. rewrite Hj in Hj2. injection Hj2 as <-. split; [done|].
           destruct (Hold _ j Hj) as [_ Ho2]. rewrite Hb2 in Ho2. by rewrite Ho2.
        -- exists j2. rewrite lookup_insert_ne by done. split_and!; try done. destruct (Hold _ j2 Hj2) as [_ Ho2]. rewrite Hb2 in Ho2. by rewrite Ho2.
      * apply done_more; [by repeat constructor|done].
  - (* forget *)
    cbn [calm] in Ho. destruct Ho as [Hbz Hin]. unfold forget.
    assert (Hh : h ∈ of_key k internal (subscribers ev)). { destruct internal; [by rewrite I1|by rewrite I2]. }
    destruct (d_mine s !! k) as [j|] eqn:Hj; [|unfold inner, outer in Hin; rewrite Hj in Hin; destruct internal; by apply elem_of_nil in Hin].
    destruct (I6 k j Hj) as (buf & Hb & Hlt). rewrite Hb. set (flt := List.filter (fun x => negb (x =? h))).
    assert (Hfid : forall l, h ∉ l -> flt l = l) by (intros l; apply filter_id).
    assert (Hinner : inner s k = b_elems buf) by (unfold inner; by rewrite Hj, Hb).
    assert (Houter : outer s k = j_ext j) by (unfold outer; by rewrite Hj).
    assert (Hoth : forall k2 i2, (k2, i2) <> (k, internal) -> h ∉ of_key k2 i2 (subscribers ev)).
    { intros k2 i2 Hne Hx. destruct (one_key _ _ _ _ _ _ I3 Hh Hx) as [-> ->]. done. }
    assert (Hext : (if internal then Some (j_ext j) else erase h (j_ext j)) = Some (flt (j_ext j))).
    { destruct internal.
      - unfold flt. rewrite filter_id; [done|]. rewrite <-Houter, <-I2. by apply Hoth.
      - rewrite Houter in Hin. destruct (erase_some _ _ Hin) as [l' Hl']. rewrite Hl'. f_equal. eapply erase_filter; [|done]. rewrite <-Houter, <-I2. by apply of_key_nodup. }
    assert (Hint : (if internal then erase h (b_elems buf) else Some (b_elems buf)) = Some (flt (b_elems buf))).
    { destruct internal.
      - rewrite Hinner in Hin. destruct (erase_some _ _ Hin) as [l' Hl']. rewrite Hl'. f_equal. eapply erase_filter; [|done]. rewrite <-Hinner, <-I1. by apply of_key_nodup.
      - unfold flt. rewrite filter_id; [done|]. rewrite <-Hinner, <-I1. by apply Hoth. }
    rewrite Hext, Hint. eexists _, _. split; [done|]. set (dn := match flt (j_ext j) with [] => match flt (b_elems buf) with [] => true | _ => false end | _ => false end).
    assert (Hsub : subscribers (ev ++ [EForgot k h]) = List.filter (fun x => negb (x.2 =? h)) (subscribers ev)) by (by rewrite subscribers_app).
    assert (Hdn : dn = true -> flt (j_ext j) = [] /\ flt (b_elems buf) = []). { unfold dn. destruct (flt (j_ext j)); [|done]. by destruct (flt (b_elems buf)). }
    split; cbn; rewrite ?Hsub, ?filter_snd.
    + intros k2. rewrite of_key_filter, I1. fold flt. unfold inner at 2. cbn. destruct (decide (k = k2)) as [<-|Hne].
      * rewrite Hinner. destruct dn; [rewrite lookup_delete; by apply Hdn|]. rewrite lookup_insert. cbn. by rewrite lookup_insert.
      * rewrite Hfid by (rewrite <-I1; apply Hoth; congruence). unfold inner.
        assert (Hm : (if dn then delete k (d_mine s) else <[k:=Joint (flt (j_ext j)) (j_buf j)]> (d_mine s)) !! k2 = d_mine s !! k2) by (destruct dn; [by rewrite lookup_delete_ne|by rewrite lookup_insert_ne]).
        rewrite Hm. destruct (d_mine s !! k2) as [j2|] eqn:Hj2; [|done].
        assert (Hbn : j_buf j <> j_buf j2) by (intros He; apply Hne; by eapply I7). destruct dn; [by rewrite lookup_delete_ne|by rewrite lookup_insert_ne].
    + intros k2. rewrite of_key_filter, I2. fold flt. unfold outer at 2. cbn. destruct (decide (k = k2)) as [<-|Hne].
      * rewrite Houter. destruct dn; [rewrite lookup_delete; by apply Hdn|]. by rewrite lookup_insert.
      * rewrite Hfid by (rewrite <-I2; apply Hoth; congruence). unfold outer. destruct dn; [by rewrite lookup_delete_ne|by rewrite lookup_insert_ne].
    + by apply filter_nodup.
    + intros x. rewrite filter_in, elem_of_difference, I4, elem_of_singleton. done.
    + intros x Hx. apply filter_in in Hx as [Hx _]. by apply I5.
    + intros k2 j2 Hj2. destruct (decide (k = k2)) as [<-|Hne].
      * destruct dn; [by rewrite lookup_delete in Hj2|]. rewrite lookup_insert in Hj2. injection Hj2 as <-. cbn. rewrite lookup_insert. eauto.
      * assert (Hm : d_mine s !! k2 = Some j2) by (destruct dn; [by rewrite lookup_delete_ne in Hj2|by rewrite lookup_insert_ne in Hj2]).
        destruct (I6 k2 j2 Hm) as (b2 & Hb2 & Hl2). assert (Hbn : j_buf j <> j_buf j2) by (intros He; apply Hne; by eapply I7). exists b2. split; [|done].
        destruct dn; [by rewrite lookup_delete_ne|by rewrite lookup_insert_ne].
    + intros k1 k2 j1 j2 H1 H2 He.
      assert (Hx : forall k' j', (if dn then delete k (d_mine s) else <[k:=Joint (flt (j_ext j)) (j_buf j)]> (d_mine s)) !! k' = Some j' -> exists j0, d_mine s !! k' = Some j0 /\ j_buf j0 = j_buf j').
      { intros k' j' Hk'. destruct (decide (k = k')) as [<-|Hne]; [|exists j'; split; [|done]; destruct dn; [by rewrite lookup_delete_ne in Hk'|by rewrite lookup_insert_ne in Hk']].
        destruct dn; [by rewrite lookup_delete in Hk'|]. rewrite lookup_insert in Hk'. injection Hk' as <-. by exists j. }
      destruct (Hx _ _ H1) as (a1 & Ha1 & Hb1), (Hx _ _ H2) as (a2 & Ha2 & Hb2). eapply I7; eauto. congruence.
    + eapply loop_more; eauto. intros l Hl Hlt2 j2 buf2 Hj2 Hb2 Hh2. cbn. destruct (decide (k = l_key l)) as [->|Hne].
      * destruct internal; [exfalso; apply Hbz; [done|]; unfold busy; by rewrite Hl|].
        rewrite Hj in Hj2. injection Hj2 as <-. rewrite Hb2 in Hb. rewrite Hb in Hh2. injection Hh2 as <-.
        assert (Hflt : flt (b_elems buf) = b_elems buf) by (by injection Hint).
        assert (Hne : b_elems buf <> []).
        { unfold loop_ok in I8. rewrite Hl in I8. destruct I8 as (evA & evB & _ & _ & Hlen & _ & _ & _ & H5). destruct (H5 Hlt2) as (j3 & buf3 & Hj3 & Hb3 & Hh3 & Hp). rewrite Hb in Hh3. injection Hh3 as <-.
          intros He. rewrite He in Hp. rewrite <-Hp in Hlen. cbn in Hlen. lia. }
        assert (Hf : dn = false). { unfold dn. rewrite Hflt. destruct (flt (j_ext j)); [|done]. by destruct (b_elems buf). }
        rewrite Hf, lookup_insert. eexists. split; [done|]. cbn. split; [done|]. rewrite Hb2, lookup_insert. rewrite Hflt. by destruct buf.
      * exists j2. assert (Hbn : j_buf j <> l_buf l) by (rewrite <-Hb2; intros He; apply Hne; by eapply I7).
        destruct dn; [rewrite !lookup_delete_ne by done|rewrite !lookup_insert_ne by done]; done.
    + apply done_more; [by repeat constructor|done].
  - (* start *)
    unfold start. destruct (d_loop s) as [l|] eqn:Hl; [exists s, []; rewrite app_nil_r; done|].
    destruct (d_mine s !! k) as [j|] eqn:Hj; [|exists s, []; rewrite app_nil_r; done].
    destruct (I6 k j Hj) as (buf & Hb & _). rewrite Hb. eexists _, _. split; [done|].
    assert (Hsub : subscribers (ev ++ EStart k :: (EForward <$> j_ext j)) = subscribers ev).
    { rewrite subscribers_app. cbn. generalize (j_ext j). intros l. induction l as [|x l IH]; cbn; done. }
    assert (Hcl : calls (EForward <$> j_ext j) = []) by (generalize (j_ext j); intros l; by induction l).
    assert (Hfw : forwards (EForward <$> j_ext j) = j_ext j) by (generalize (j_ext j); intros l; induction l as [|x l IH]; cbn; [done|by f_equal]).
    split; try (rewrite Hsub); try done.
    + exists ev, (EForward <$> j_ext j). cbn. split_and!; try done.
      * apply Forall_fmap, Forall_forall. by intros x _.
      * rewrite I1. unfold inner. by rewrite Hj, Hb.
      * lia.
      * rewrite Hfw, I2. unfold outer. by rewrite Hj.
      * intros _. exists j, buf. split_and!; try done. rewrite I1. unfold inner. by rewrite Hj, Hb.
    + apply done_more; [|done]. constructor; [done|]. apply Forall_fmap, Forall_forall. by intros x _.
  - (* next *)
    unfold next. destruct (d_loop s) as [[k b i e]|] eqn:Hl; [|exists s, []; rewrite app_nil_r; done].
    unfold loop_ok in I8. rewrite Hl in I8. destruct I8 as (evA & evB & Hev & HB & H1 & H2 & H3 & H4 & H5). cbn in *.
    assert (Hs1 : forall x, match x with ESubscribed _ _ _ | EForgot _ _ => False | _ => True end -> subscribers (ev ++ [x]) = subscribers ev).
    { intros x Hx. rewrite subscribers_app. by destruct x. }
    destruct (Nat.eqb_spec i e) as [->|Hne].
    + eexists _, _. split; [done|]. split; try (rewrite Hs1 by done); try done. eapply done_end; eauto. split; [|done]. rewrite H3. rewrite firstn_all2; [done|lia].
    + destruct H5 as (j & buf & Hj & Hb & Hh & Hp); [lia|]. rewrite Hh, Hp.
      destruct (lookup_lt_is_Some_2 (of_key k true (subscribers evA)) i) as [h Hi]; [lia|]. rewrite Hi.
      rewrite decide_True.
      2: { apply I4. apply (snd_of_key k true). rewrite I1. unfold inner. rewrite Hj, Hb, Hh, Hp. by eapply elem_of_list_lookup_2. }
      eexists _, _. split; [done|]. split; try (rewrite Hs1 by done); try done.
      * exists evA, (evB ++ [ECall h]). cbn. split_and!; try done.
        -- by rewrite Hev, <-app_assoc.
        -- apply Forall_app. split; [done|]. by repeat constructor.
        -- lia.
        -- rewrite calls_app, H3. cbn. by erewrite take_S_r.
        -- rewrite forwards_app, H4. cbn. by rewrite app_nil_r.
        -- intros _. by exists j, buf.
      * apply done_more; [by repeat constructor|done].
Qed.

Lemma init_inv : dinv dinit [].
Proof.
  split; try done.
  - constructor.
  - intros h. cbn. by rewrite elem_of_empty, elem_of_nil.
  - intros h Hh. by apply elem_of_nil in Hh.
  - intros evA k evB k' evC H. by destruct evA.
Qed.
Lemma d_safe ops : guarded dstep calm dinit ops -> exists s ev, run dstep dinit ops = Ok (s, ev) /\ dinv s ev.
Proof. intros Hg. apply (run_safe_ev dstep calm dinv step_inv ops dinit [] init_inv Hg). Qed.
Lemma d_reach ops s ev : guarded dstep calm dinit ops -> run dstep dinit ops = Ok (s, ev) -> dinv s ev.
Proof. intros Hg H. destruct (d_safe ops Hg) as (s1 & e1 & H1 & Hf). rewrite H in H1. by inversion H1; subst. Qed.
Lemma d_exact ops s ev evA k evB k' evC : guarded dstep calm dinit ops -> run dstep dinit ops = Ok (s, ev) ->
  ev = evA ++ EStart k :: evB ++ EDone k' :: evC -> Forall quiet evB -> k' = k /\ served evA k evB.
Proof. intros Hg H. apply (i_done _ _ (d_reach ops s ev Hg H)). Qed.
Lemma d_called ops s ev h : guarded dstep calm dinit ops -> run dstep dinit ops = Ok (s, ev) -> forall s' e, dstep s DNext = Ok (s', e) -> ECall h ∈ e ->
  exists l, d_loop s = Some l /\ (l_key l, true, h) ∈ subscribers ev.
Proof.
  intros Hg H s' e Hn Hc. pose proof (d_reach ops s ev Hg H) as [I1 I2 I3 I4 I5 I6 I7 I8 I9]. cbn in Hn. unfold next in Hn.
  unfold loop_ok in I8. destruct (d_loop s) as [[k b i n]|]; [|injection Hn as <- <-; by apply elem_of_nil in Hc]. cbn in I8. destruct I8 as (evA & evB & Hev & HB & H1 & H2 & H3 & H4 & H5).
  exists (Loop k b i n). split; [done|]. cbn. destruct (Nat.eqb_spec i n); [injection Hn as <- <-; apply elem_of_list_singleton in Hc; done|].
  destruct H5 as (j & buf & Hj & Hb & Hh & Hp); [lia|]. rewrite Hh in Hn. destruct (b_elems buf !! i) as [x|] eqn:Hx; [|done].
  destruct (decide _); [|done]. injection Hn as <- <-. apply elem_of_list_singleton in Hc. injection Hc as ->.
  apply of_key_in. rewrite I1. unfold inner. rewrite Hj, Hb, Hh. by eapply elem_of_list_lookup_2.
Qed.
End proofs.
