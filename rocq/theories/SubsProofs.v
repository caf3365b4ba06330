(** Proofs about the subscription map. *)
From stdpp Require Import base list gmap.
From Verif Require Import Base SubsModel SubsSpec.

Section P.
  Variable addr_in : N -> bool.
  Variable actor_in : N -> bool.
  Notation sstep := (sstep addr_in actor_in).
  Notation spec_step := (spec_step addr_in).
  Notation matching := (matching actor_in).

  Definition dummy : handler := Handler 0 0 0 0 [].
  Definition hof (heap : gmap N info) (id : N) : handler :=
    match heap !! id with Some i => i_handler i | None => dummy end.

  Definition at_addr (a : N) (u : sub) : bool := N.eqb (su_addr u) a.

  Record inv (s : subs) (l : list sub) : Prop := Inv {
    v_heap : forall id i, sb_heap s !! id = Some i ->
      (id < sb_next s)%N /\ (h_ptr (i_handler i) < sb_next s)%N /\
      i_intaddr i = addr_in (i_addr i) /\ i_inthandler i = actor_in (h_actor (i_handler i));
    v_inj : forall id1 id2 i1 i2, sb_heap s !! id1 = Some i1 -> sb_heap s !! id2 = Some i2 ->
      h_ptr (i_handler i1) = h_ptr (i_handler i2) -> id1 = id2;
    v_live : forall u, In u l -> exists i, sb_heap s !! su_id u = Some i /\
      i_addr i = su_addr u /\ h_mtype (i_handler i) = su_mtype u /\
      h_actor (i_handler i) = su_actor u /\ h_core (i_handler i) = su_core u /\
      addr_in (su_addr u) = true;
    v_nodup : NoDup (su_id <$> l);
    v_infos : forall a, default [] (sb_infos s !! a) = su_id <$> List.filter (at_addr a) l;
    v_infos_ne : forall a, sb_infos s !! a <> Some [];
    v_int : forall a m, j_internal (joint_at s (a, m)) =
      (fun u => hof (sb_heap s) (su_id u)) <$> List.filter (matching a m true) l;
    v_ext : forall a m, j_external (joint_at s (a, m)) =
      (fun u => hof (sb_heap s) (su_id u)) <$> List.filter (matching a m false) l;
    v_mine_ne : forall k, sb_mine s !! k <> Some (Joint [] [])
  }.

  Lemma inv_init : inv subs_init [].
  Proof.
    split; simpl; intros; try done.
    constructor.
  Qed.

  Lemma filter_map_ext {A B} (f : A -> B) g l :
    (forall x, In x l -> f x = g x) -> f <$> l = g <$> l.
  Proof.
    induction l as [|x l IH]; csimpl; intros H; [done|].
    rewrite (H x) by auto. f_equal. apply IH; auto.
  Qed.

  Lemma In_filter {A} (f : A -> bool) l x : In x (List.filter f l) <-> In x l /\ f x = true.
  Proof. apply List.filter_In. Qed.

  Lemma bfilter_app {A} (f : A -> bool) l1 l2 :
    List.filter f (l1 ++ l2) = List.filter f l1 ++ List.filter f l2.
  Proof. induction l1; csimpl; [done|]. destruct (f a); csimpl; by rewrite IHl1. Qed.

  Lemma bfilter_comm {A} (f g : A -> bool) l :
    List.filter f (List.filter g l) = List.filter g (List.filter f l).
  Proof.
    induction l as [|x l IH]; csimpl; [done|].
    destruct (g x) eqn:Hg, (f x) eqn:Hf; csimpl; rewrite ?Hg, ?Hf, IH; done.
  Qed.

  Lemma bfilter_id {A} (f : A -> bool) l : (forall x, In x l -> f x = true) -> List.filter f l = l.
  Proof.
    induction l as [|x l IH]; csimpl; intros H; [done|].
    rewrite (H x) by auto. f_equal. auto.
  Qed.

  (** Erasing the element mapped from the only [u] with identity [id]. *)
  Lemma erase_first_spec {B} (f : B -> bool) (g : sub -> B) l u :
    NoDup (su_id <$> l) -> In u l ->
    (forall v, In v l -> f (g v) = N.eqb (su_id v) (su_id u)) ->
    erase_first f (g <$> l) = Some (g <$> List.filter (fun v => negb (N.eqb (su_id v) (su_id u))) l).
  Proof.
    induction l as [|v l IH]; csimpl; intros Hnd Hin Hf; [done|].
    apply NoDup_cons in Hnd as [Hni Hnd]. rewrite Hf by auto.
    destruct (N.eqb_spec (su_id v) (su_id u)) as [He|He]; csimpl.
    - f_equal. f_equal. symmetry. apply bfilter_id. intros w Hw.
      apply Bool.negb_true_iff, N.eqb_neq. intros Hc. apply Hni. rewrite He, <- Hc.
      apply elem_of_list_fmap. exists w. split; [done|]. by apply elem_of_list_In.
    - destruct Hin as [->|Hin]; [done|]. rewrite IH; auto.
  Qed.

  Lemma erase_first_none {B} (f : B -> bool) l :
    (forall x, In x l -> f x = false) -> erase_first f l = None.
  Proof.
    induction l as [|x l IH]; csimpl; intros H; [done|]. rewrite (H x) by auto.
    rewrite IH; auto.
  Qed.

  Lemma replace_first_spec f (g g' : sub -> handler) nh l u :
    NoDup (su_id <$> l) -> In u l ->
    (forall v, In v l -> f (g v) = N.eqb (su_id v) (su_id u)) ->
    g' u = nh -> (forall v, In v l -> su_id v <> su_id u -> g' v = g v) ->
    replace_first f nh (g <$> l) = Some (g' <$> l).
  Proof.
    intros Hnd Hin Hf Hu Hg. induction l as [|v l IH]; csimpl in *; [done|].
    apply NoDup_cons in Hnd as [Hni Hnd]. rewrite Hf by auto.
    destruct (N.eqb_spec (su_id v) (su_id u)) as [He|He]; csimpl.
    - assert (v = u) as ->.
      { destruct Hin as [->|Hin]; [done|]. exfalso. apply Hni. rewrite He.
        apply elem_of_list_fmap. exists u. split; [done|]. by apply elem_of_list_In. }
      rewrite Hu. f_equal. f_equal. apply filter_map_ext. intros w Hw. symmetry. apply Hg; auto.
      intros Hc. apply Hni. rewrite <- Hc. apply elem_of_list_fmap. exists w. split; [done|].
      by apply elem_of_list_In.
    - destruct Hin as [->|Hin]; [done|]. rewrite IH; auto. csimpl. by rewrite (Hg v) by auto.
  Qed.

  Lemma replace_first_none f nh l :
    (forall x, In x l -> f x = false) -> replace_first f nh l = None.
  Proof.
    induction l as [|x l IH]; csimpl; intros H; [done|]. rewrite (H x) by auto.
    rewrite IH; auto.
  Qed.

  Lemma nodup_filter l (f : sub -> bool) : NoDup (su_id <$> l) -> NoDup (su_id <$> List.filter f l).
  Proof.
    induction l as [|x l IH]; csimpl; intros H; [done|].
    apply NoDup_cons in H as [H1 H2]. destruct (f x); csimpl; [|auto].
    constructor; [|auto]. intros Hc. apply H1.
    apply elem_of_list_fmap in Hc as (y & -> & Hy). apply elem_of_list_fmap. exists y.
    split; [done|]. apply elem_of_list_In. apply elem_of_list_In, In_filter in Hy. tauto.
  Qed.

  Lemma hof_eq s l id i : inv s l -> sb_heap s !! id = Some i -> hof (sb_heap s) id = i_handler i.
  Proof. intros _ H. unfold hof. by rewrite H. Qed.

  (** ** subscribe *)
  Lemma inv_subscribe s l act m a s' e :
    inv s l -> sstep s (Subscribe act m a) = Ok (s', e) -> inv s' (fold_left spec_step e l).
  Proof.
    intros HI Hs. cbn in Hs. unfold subscribe, materialize in Hs. simpl in Hs.
    set (p := sb_next s) in *. set (id := N.succ p) in *.
    set (h := Handler p act m p []) in *.
    set (heap' := <[id := Info h a (addr_in a) (actor_in act)]> (sb_heap s)) in *.
    assert (Hfresh : sb_heap s !! id = None).
    { destruct (sb_heap s !! id) eqn:E; [|done]. apply (v_heap _ _ HI) in E as (E & _). unfold id in E. lia. }
    assert (Hheap : forall j i, heap' !! j = Some i ->
       (j < N.succ id)%N /\ (h_ptr (i_handler i) < N.succ id)%N /\
       i_intaddr i = addr_in (i_addr i) /\ i_inthandler i = actor_in (h_actor (i_handler i))).
    { intros j i Hj. unfold heap' in Hj. apply lookup_insert_Some in Hj as [[<- <-]|[_ Hj]].
      - simpl. unfold id. repeat split; try done; lia.
      - apply (v_heap _ _ HI) in Hj as (?&?&?&?). unfold id, p. repeat split; try done; lia. }
    assert (Hinj : forall id1 id2 i1 i2, heap' !! id1 = Some i1 -> heap' !! id2 = Some i2 ->
       h_ptr (i_handler i1) = h_ptr (i_handler i2) -> id1 = id2).
    { intros j1 j2 i1 i2 H1 H2 He. unfold heap' in H1, H2.
      apply lookup_insert_Some in H1 as [[<- <-]|[N1 H1]];
      apply lookup_insert_Some in H2 as [[<- <-]|[N2 H2]]; try done.
      - apply (v_heap _ _ HI) in H2 as (_&H2&_). simpl in He. fold p in H2. lia.
      - apply (v_heap _ _ HI) in H1 as (_&H1&_). simpl in He. fold p in H1. lia.
      - eapply (v_inj _ _ HI); eauto. }
    assert (Hlid : forall u, In u l -> su_id u <> id).
    { intros u Hu Hc. destruct (v_live _ _ HI u Hu) as (i & Hi & _). rewrite Hc, Hfresh in Hi. done. }
    assert (Hhof : forall u, In u l -> hof heap' (su_id u) = hof (sb_heap s) (su_id u)).
    { intros u Hu. unfold hof, heap'. rewrite lookup_insert_ne; [done|]. intros Hc. by apply (Hlid u Hu). }
    destruct (addr_in a) eqn:Ea; inversion Hs; subst s' e; clear Hs; simpl.
    - rewrite Ea. split; simpl.
      + exact Hheap.
      + exact Hinj.
      + intros u Hu. apply in_app_or in Hu as [Hu|[<-|[]]].
        * destruct (v_live _ _ HI u Hu) as (i & Hi & H). exists i. split; [|done].
          unfold heap'. rewrite lookup_insert_ne; [done|]. intros Hc. by apply (Hlid u Hu).
        * simpl. unfold heap'. eexists. rewrite lookup_insert. split; [done|]. simpl. done.
      + rewrite fmap_app. simpl. apply NoDup_app. split; [apply (v_nodup _ _ HI)|]. split; [|apply NoDup_singleton].
        intros x Hx Hc. apply elem_of_list_singleton in Hc. subst x.
        apply elem_of_list_fmap in Hx as (u & Hu & Hin). apply elem_of_list_In in Hin. by apply (Hlid u Hin).
      + intros a'. rewrite bfilter_app, fmap_app. simpl. unfold at_addr at 2. simpl.
        destruct (N.eqb_spec a a') as [<-|Hne].
        * rewrite lookup_insert. simpl. by rewrite (v_infos _ _ HI a).
        * rewrite lookup_insert_ne by done. rewrite (v_infos _ _ HI a'). simpl. by rewrite app_nil_r.
      + intros a'. destruct (decide (a = a')) as [<-|Hne].
        * rewrite lookup_insert. intros Hc. inversion Hc as [Hc1]. by apply app_nil in Hc1 as [_ ?].
        * rewrite lookup_insert_ne by done. apply (v_infos_ne _ _ HI).
      + intros a' m'. rewrite bfilter_app, fmap_app. simpl. unfold matching at 2. simpl.
        unfold joint_at at 1. simpl.
        rewrite (filter_map_ext (λ u, hof heap' (su_id u)) (λ u, hof (sb_heap s) (su_id u)))
          by (intros u Hu; apply In_filter in Hu as [Hu _]; by apply Hhof).
        rewrite <- (v_int _ _ HI a' m').
        destruct (N.eqb_spec a a') as [<-|Hne]; simpl.
        2:{ rewrite lookup_insert_ne by (intros Hc; inversion Hc; done). by rewrite app_nil_r. }
        destruct (N.eqb_spec m m') as [<-|Hne]; simpl.
        2:{ rewrite lookup_insert_ne by (intros Hc; inversion Hc; done). by rewrite app_nil_r. }
        rewrite lookup_insert. simpl. unfold joint_push, joint_at. simpl.
        destruct (actor_in act) eqn:Ei; simpl; [|by rewrite app_nil_r].
        unfold heap', hof. by rewrite lookup_insert.
      + intros a' m'. rewrite bfilter_app, fmap_app. simpl. unfold matching at 2. simpl.
        unfold joint_at at 1. simpl.
        rewrite (filter_map_ext (λ u, hof heap' (su_id u)) (λ u, hof (sb_heap s) (su_id u)))
          by (intros u Hu; apply In_filter in Hu as [Hu _]; by apply Hhof).
        rewrite <- (v_ext _ _ HI a' m').
        destruct (N.eqb_spec a a') as [<-|Hne]; simpl.
        2:{ rewrite lookup_insert_ne by (intros Hc; inversion Hc; done). by rewrite app_nil_r. }
        destruct (N.eqb_spec m m') as [<-|Hne]; simpl.
        2:{ rewrite lookup_insert_ne by (intros Hc; inversion Hc; done). by rewrite app_nil_r. }
        rewrite lookup_insert. simpl. unfold joint_push, joint_at. simpl.
        destruct (actor_in act) eqn:Ei; simpl; [by rewrite app_nil_r|].
        unfold heap', hof. by rewrite lookup_insert.
      + intros k. destruct (decide ((a, m) = k)) as [<-|Hne].
        * rewrite lookup_insert. unfold joint_push. intros Hc.
          apply (f_equal (fun o => match o with
            | Some j => length (j_internal j ++ j_external j) | None => 0 end)) in Hc.
          destruct (actor_in act); simpl in Hc; rewrite !app_length in Hc; simpl in Hc; lia.
        * rewrite lookup_insert_ne by done. apply (v_mine_ne _ _ HI).
    - rewrite Ea. split; simpl; try apply HI.
      + exact Hheap.
      + exact Hinj.
      + intros u Hu. destruct (v_live _ _ HI u Hu) as (i & Hi & H). exists i. split; [|done].
        unfold heap'. rewrite lookup_insert_ne; [done|]. intros Hc. by apply (Hlid u Hu).
      + intros a' m'. unfold joint_at. simpl. fold (joint_at s (a', m')). rewrite (v_int _ _ HI).
        apply filter_map_ext. intros u Hu. apply In_filter in Hu as [Hu _]. by rewrite Hhof.
      + intros a' m'. unfold joint_at. simpl. fold (joint_at s (a', m')). rewrite (v_ext _ _ HI).
        apply filter_map_ext. intros u Hu. apply In_filter in Hu as [Hu _]. by rewrite Hhof.
  Qed.

  Lemma sub_eq l u v : NoDup (su_id <$> l) -> In u l -> In v l -> su_id u = su_id v -> u = v.
  Proof.
    induction l as [|w l IH]; csimpl; intros Hnd Hu Hv He; [done|].
    apply NoDup_cons in Hnd as [Hni Hnd].
    destruct Hu as [->|Hu], Hv as [->|Hv]; auto; exfalso; apply Hni; apply elem_of_list_fmap.
    - exists v. split; [done|]. by apply elem_of_list_In.
    - exists u. split; [done|]. by apply elem_of_list_In.
  Qed.

  Lemma ptr_test s l u i v :
    inv s l -> In u l -> In v l -> sb_heap s !! su_id u = Some i ->
    bool_decide (h_ptr (hof (sb_heap s) (su_id v)) = h_ptr (i_handler i)) = N.eqb (su_id v) (su_id u).
  Proof.
    intros HI Hu Hv Hi. destruct (v_live _ _ HI v Hv) as (iv & Hiv & _).
    unfold hof. rewrite Hiv. destruct (N.eqb_spec (su_id v) (su_id u)) as [He|He].
    - apply bool_decide_eq_true. rewrite He, Hi in Hiv. by inversion Hiv.
    - apply bool_decide_eq_false. intros Hc. apply He. eapply (v_inj _ _ HI); eauto.
  Qed.

  Lemma ptr_test_dead s l i id v :
    inv s l -> sb_heap s !! id = Some i -> In v l -> (forall u, In u l -> su_id u <> id) ->
    bool_decide (h_ptr (hof (sb_heap s) (su_id v)) = h_ptr (i_handler i)) = false.
  Proof.
    intros HI Hi Hv Hd. destruct (v_live _ _ HI v Hv) as (iv & Hiv & _).
    unfold hof. rewrite Hiv. apply bool_decide_eq_false. intros Hc. apply (Hd v Hv).
    eapply (v_inj _ _ HI); eauto.
  Qed.

  (** The map entry for a live subscription exists. *)
  Lemma mine_some s l u i :
    inv s l -> In u l -> sb_heap s !! su_id u = Some i ->
    exists j, sb_mine s !! (su_addr u, su_mtype u) = Some j.
  Proof.
    intros HI Hu Hi. destruct (sb_mine s !! (su_addr u, su_mtype u)) as [j|] eqn:E; [by eauto|].
    exfalso. destruct (actor_in (su_actor u)) eqn:Ea.
    - pose proof (v_int _ _ HI (su_addr u) (su_mtype u)) as H. unfold joint_at in H. rewrite E in H. simpl in H.
      symmetry in H. apply fmap_nil_inv in H.
      assert (In u (List.filter (matching (su_addr u) (su_mtype u) true) l)) as Hc; [|by rewrite H in Hc].
      apply In_filter. split; [done|]. unfold matching. by rewrite !N.eqb_refl, Ea.
    - pose proof (v_ext _ _ HI (su_addr u) (su_mtype u)) as H. unfold joint_at in H. rewrite E in H. simpl in H.
      symmetry in H. apply fmap_nil_inv in H.
      assert (In u (List.filter (matching (su_addr u) (su_mtype u) false) l)) as Hc; [|by rewrite H in Hc].
      apply In_filter. split; [done|]. unfold matching. by rewrite !N.eqb_refl, Ea.
  Qed.

  Lemma live_or_dead (l : list sub) id : (exists u, In u l /\ su_id u = id) \/ (forall u, In u l -> su_id u <> id).
  Proof.
    induction l as [|u l [(v & Hv & He)|IH]].
    - right. by intros u [].
    - left. exists v. simpl. auto.
    - destruct (decide (su_id u = id)) as [He|He]; [left; exists u; simpl; auto|].
      right. intros v [<-|Hv]; auto.
  Qed.

  Definition drop (id : N) (l : list sub) := List.filter (fun v => negb (N.eqb (su_id v) id)) l.

  Lemma drop_dead id l : (forall u, In u l -> su_id u <> id) -> drop id l = l.
  Proof. intros H. apply bfilter_id. intros u Hu. by apply Bool.negb_true_iff, N.eqb_neq, H. Qed.

  Lemma map_default_infos s l i :
    inv s l -> forall lst, sb_infos s !! i_addr i = Some lst ->
    lst = su_id <$> List.filter (at_addr (i_addr i)) l.
  Proof. intros HI lst H. rewrite <- (v_infos _ _ HI), H. done. Qed.

  Lemma handler_of_test s l i v :
    inv s l -> In v l ->
    bool_decide (handler_of s (su_id v) = Some (h_ptr (i_handler i))) =
    bool_decide (h_ptr (hof (sb_heap s) (su_id v)) = h_ptr (i_handler i)).
  Proof.
    intros HI Hv. destruct (v_live _ _ HI v Hv) as (iv & Hiv & _).
    unfold handler_of, hof. rewrite Hiv. simpl. apply bool_decide_ext. split; [by inversion 1|by intros ->].
  Qed.

  Lemma default_collapse (a : N) (lst : list N) (m : gmap N (list N)) a' :
    default [] (match lst with [] => delete a m | _ => <[a := lst]> m end !! a') =
    if N.eqb a a' then lst else default [] (m !! a').
  Proof.
    destruct (N.eqb_spec a a') as [<-|Hne], lst; rewrite ?lookup_delete, ?lookup_insert,
      ?lookup_delete_ne, ?lookup_insert_ne by done; done.
  Qed.

  Lemma joint_collapse (k k' : N * N) (j : joint) (m : gmap (N * N) joint) :
    default (Joint [] []) (mine_set m k j !! k') =
    if decide (k = k') then j else default (Joint [] []) (m !! k').
  Proof.
    unfold mine_set. destruct j as [[|? ?] [|? ?]], (decide (k = k')) as [<-|Hne]; rewrite ?lookup_delete, ?lookup_insert,
      ?lookup_delete_ne, ?lookup_insert_ne by done; done.
  Qed.

  Lemma forget_live s l u i :
    inv s l -> In u l -> sb_heap s !! su_id u = Some i ->
    exists s', forget s (su_id u) = Ok s' /\ inv s' (drop (su_id u) l).
  Proof.
    intros HI Hu Hi. destruct (v_live _ _ HI u Hu) as (i' & Hi' & Ha & Hm & Hac & Hc & Hin).
    rewrite Hi in Hi'. inversion Hi'. subst i'. clear Hi'.
    destruct (v_heap _ _ HI _ _ Hi) as (_ & _ & Hia & Hih). rewrite Ha, Hin in Hia.
    unfold forget. rewrite Hi, Hia.
    assert (Hne : sb_infos s !! i_addr i = Some (su_id <$> List.filter (at_addr (i_addr i)) l)).
    { destruct (sb_infos s !! i_addr i) as [lst|] eqn:E.
      - f_equal. by eapply map_default_infos.
      - exfalso. pose proof (v_infos _ _ HI (i_addr i)) as H. rewrite E in H. simpl in H. symmetry in H.
        apply fmap_nil_inv in H.
        assert (In u (List.filter (at_addr (i_addr i)) l)) as Hx; [|by rewrite H in Hx].
        apply In_filter. split; [done|]. unfold at_addr. by rewrite Ha, N.eqb_refl. }
    rewrite Hne.
    rewrite (erase_first_spec _ su_id _ u).
    2:{ by apply nodup_filter, HI. }
    2:{ apply In_filter. split; [done|]. unfold at_addr. by rewrite Ha, N.eqb_refl. }
    2:{ intros v Hv. apply In_filter in Hv as [Hv _]. erewrite handler_of_test by eauto. by eapply ptr_test. }
    rewrite Hm, Ha. destruct (mine_some _ _ _ _ HI Hu Hi) as [j Hj]. rewrite Hj.
    assert (Hji : j_internal j = (fun u => hof (sb_heap s) (su_id u)) <$> List.filter (matching (su_addr u) (su_mtype u) true) l).
    { rewrite <- (v_int _ _ HI). unfold joint_at. by rewrite Hj. }
    assert (Hje : j_external j = (fun u => hof (sb_heap s) (su_id u)) <$> List.filter (matching (su_addr u) (su_mtype u) false) l).
    { rewrite <- (v_ext _ _ HI). unfold joint_at. by rewrite Hj. }
    set (j' := Joint ((fun u => hof (sb_heap s) (su_id u)) <$> List.filter (matching (su_addr u) (su_mtype u) true) (drop (su_id u) l))
                     ((fun u => hof (sb_heap s) (su_id u)) <$> List.filter (matching (su_addr u) (su_mtype u) false) (drop (su_id u) l))).
    match goal with |- context [match ?r with Some j' => Ok _ | None => AssertFail end] =>
      assert (r = Some j') as -> end.
    { rewrite Hih, Hac. unfold j', drop.
      rewrite !(bfilter_comm (matching _ _ _)).
      destruct (actor_in (su_actor u)) eqn:Ea.
      - rewrite Hji, (erase_first_spec _ (fun u => hof (sb_heap s) (su_id u)) _ u); simpl.
        + rewrite Hje. f_equal. f_equal. f_equal. symmetry. apply bfilter_id. intros v Hv.
          apply In_filter in Hv as [Hv Hmt]. apply Bool.negb_true_iff, N.eqb_neq. intros Hx.
          assert (v = u) by (eapply sub_eq; eauto; apply HI). subst v.
          unfold matching in Hmt. rewrite Ea in Hmt. by rewrite Bool.andb_false_r in Hmt.
        + by apply nodup_filter, HI.
        + apply In_filter. split; [done|]. unfold matching. by rewrite !N.eqb_refl, Ea.
        + intros v Hv. apply In_filter in Hv as [Hv _]. by eapply ptr_test.
      - rewrite Hje, (erase_first_spec _ (fun u => hof (sb_heap s) (su_id u)) _ u); simpl.
        + rewrite Hji. f_equal. f_equal. f_equal. symmetry. apply bfilter_id. intros v Hv.
          apply In_filter in Hv as [Hv Hmt]. apply Bool.negb_true_iff, N.eqb_neq. intros Hx.
          assert (v = u) by (eapply sub_eq; eauto; apply HI). subst v.
          unfold matching in Hmt. rewrite Ea in Hmt. by rewrite Bool.andb_false_r in Hmt.
        + by apply nodup_filter, HI.
        + apply In_filter. split; [done|]. unfold matching. by rewrite !N.eqb_refl, Ea.
        + intros v Hv. apply In_filter in Hv as [Hv _]. by eapply ptr_test. }
    eexists. split; [reflexivity|].
    assert (Hother : forall (f : sub -> bool), f u = false -> List.filter f (drop (su_id u) l) = List.filter f l).
    { intros f Hf. unfold drop. rewrite bfilter_comm. apply bfilter_id. intros v Hv.
      apply In_filter in Hv as [Hv Hfv]. apply Bool.negb_true_iff, N.eqb_neq. intros Hx.
      assert (v = u) by (eapply sub_eq; eauto; apply HI). subst v. congruence. }
    split; simpl; try apply HI.
    - intros v Hv. apply In_filter in Hv as [Hv _]. by apply (v_live _ _ HI).
    - by apply nodup_filter, HI.
    - intros a'.
      replace (match su_id <$> List.filter (λ v : sub, negb (su_id v =? su_id u)%N)
                  (List.filter (at_addr (su_addr u)) l) with
               | [] => delete (su_addr u) (sb_infos s)
               | _ :: _ => <[su_addr u:=su_id <$> List.filter (λ v : sub, negb (su_id v =? su_id u)%N)
                            (List.filter (at_addr (su_addr u)) l)]> (sb_infos s) end)
        with (match su_id <$> List.filter (at_addr (su_addr u)) (drop (su_id u) l) with
               | [] => delete (su_addr u) (sb_infos s)
               | _ :: _ => <[su_addr u:=su_id <$> List.filter (at_addr (su_addr u)) (drop (su_id u) l)]> (sb_infos s) end)
        by (unfold drop; by rewrite bfilter_comm).
      rewrite default_collapse. destruct (N.eqb_spec (su_addr u) a') as [<-|Hx]; [done|].
      rewrite (v_infos _ _ HI), Hother; [done|]. unfold at_addr. by apply N.eqb_neq.
    - intros a'. destruct (su_id <$> List.filter _ (List.filter _ l)) as [|x lst] eqn:E.
      + destruct (decide (su_addr u = a')) as [<-|Hx]; [by rewrite lookup_delete|].
        rewrite lookup_delete_ne by done. apply (v_infos_ne _ _ HI).
      + destruct (decide (su_addr u = a')) as [<-|Hx]; [by rewrite lookup_insert|].
        rewrite lookup_insert_ne by done. apply (v_infos_ne _ _ HI).
    - intros a' m'. unfold joint_at. simpl. rewrite joint_collapse.
      destruct (decide ((su_addr u, su_mtype u) = (a', m'))) as [He|Hx].
      + inversion He; subst. done.
      + fold (joint_at s (a', m')). rewrite (v_int _ _ HI), Hother; [done|].
        unfold matching. destruct (N.eqb_spec (su_addr u) a') as [<-|]; [|done].
        destruct (N.eqb_spec (su_mtype u) m') as [<-|]; done.
    - intros a' m'. unfold joint_at. simpl. rewrite joint_collapse.
      destruct (decide ((su_addr u, su_mtype u) = (a', m'))) as [He|Hx].
      + inversion He; subst. done.
      + fold (joint_at s (a', m')). rewrite (v_ext _ _ HI), Hother; [done|].
        unfold matching. destruct (N.eqb_spec (su_addr u) a') as [<-|]; [|done].
        destruct (N.eqb_spec (su_mtype u) m') as [<-|]; done.
    - intros k. unfold mine_set. destruct (decide ((su_addr u, su_mtype u) = k)) as [<-|Hx].
      + destruct j' as [[|? ?] [|? ?]]; rewrite ?lookup_delete, ?lookup_insert; done.
      + pose proof (v_mine_ne _ _ HI k).
        destruct j' as [[|? ?] [|? ?]]; rewrite ?lookup_delete_ne, ?lookup_insert_ne by done; done.
  Qed.

  Lemma forget_dead s l id i :
    inv s l -> sb_heap s !! id = Some i -> (forall u, In u l -> su_id u <> id) ->
    i_intaddr i = true -> forall s', forget s id <> Ok s'.
  Proof.
    intros HI Hi Hd Hint s'. unfold forget. rewrite Hi, Hint.
    destruct (sb_infos s !! i_addr i) as [lst|] eqn:E; [|done].
    rewrite erase_first_none; [done|]. intros x Hx.
    rewrite (map_default_infos _ _ _ HI _ E) in Hx. apply elem_of_list_In, elem_of_list_fmap in Hx as (v & -> & Hv).
    apply elem_of_list_In, In_filter in Hv as [Hv _].
    erewrite handler_of_test by eauto. by eapply ptr_test_dead.
  Qed.

  Lemma live_int s l u i : inv s l -> In u l -> sb_heap s !! su_id u = Some i -> i_intaddr i = true.
  Proof.
    intros HI Hu Hi. destruct (v_live _ _ HI u Hu) as (i' & Hi' & Ha & _ & _ & _ & Hin).
    rewrite Hi in Hi'. inversion Hi'; subst i'. destruct (v_heap _ _ HI _ _ Hi) as (_&_&H&_).
    by rewrite H, Ha.
  Qed.

  Lemma forget_ext s l id i :
    inv s l -> sb_heap s !! id = Some i -> i_intaddr i = false ->
    forget s id = Ok s /\ inv s (drop id l).
  Proof.
    intros HI Hi Hint. unfold forget. rewrite Hi, Hint. split; [done|].
    rewrite drop_dead; [done|]. intros u Hu Hc. subst id.
    rewrite (live_int _ _ _ _ HI Hu Hi) in Hint. done.
  Qed.

  Lemma inv_forget s l id s' e :
    inv s l -> sstep s (Forget id) = Ok (s', e) -> inv s' (fold_left spec_step e l).
  Proof.
    intros HI Hs. simpl in Hs. destruct (forget s id) as [s1| |] eqn:E; simpl in Hs; try done.
    inversion Hs; subst s' e; clear Hs. simpl. fold (drop id l).
    destruct (sb_heap s !! id) as [i|] eqn:Hi; [|by unfold forget in E; rewrite Hi in E].
    destruct (i_intaddr i) eqn:Hint.
    - destruct (live_or_dead l id) as [(u & Hu & <-)|Hd].
      + destruct (forget_live _ _ _ _ HI Hu Hi) as (s2 & H2 & HI2). rewrite E in H2. by inversion H2.
      + exfalso. by eapply forget_dead.
    - destruct (forget_ext _ _ _ _ HI Hi Hint) as (H2 & HI2). rewrite E in H2. by inversion H2; subst.
  Qed.

  (** ** tagging *)
  Lemma upgrade_cases s h t :
    let '(s1, nh) := upgrade s h t in
    h_actor nh = h_actor h /\ h_mtype nh = h_mtype h /\ h_core nh = h_core h /\
    sb_heap s1 = sb_heap s /\ sb_infos s1 = sb_infos s /\ sb_mine s1 = sb_mine s /\
    head (h_tags nh) = Some t /\
    ((nh = h /\ s1 = s) \/ (h_ptr nh = sb_next s /\ sb_next s1 = N.succ (sb_next s))).
  Proof.
    unfold upgrade. destruct (h_tags h) as [|t' ts] eqn:E; simpl.
    - repeat split; auto.
    - destruct (bool_decide (t' = t)) eqn:Et; simpl.
      + apply bool_decide_eq_true in Et. subst t'. rewrite E. repeat split; auto.
      + repeat split; auto.
  Qed.

  Lemma inv_tag s l id t :
    inv s l ->
    (forall s', tag addr_in actor_in s id t = Ok s' -> inv s' l) /\
    (forall i, sb_heap s !! id = Some i -> (i_intaddr i = true -> exists u, In u l /\ su_id u = id) ->
       exists s', tag addr_in actor_in s id t = Ok s').
  Proof.
    intros HI. unfold tag.
    destruct (sb_heap s !! id) as [i|] eqn:Hi; [|split; [done|]; intros ? [=]].
    pose proof (upgrade_cases s (i_handler i) t) as Hup.
    destruct (upgrade s (i_handler i) t) as [s1 nh].
    destruct Hup as (Uac & Umt & Uco & Uh & Ui & Um & _ & Ucase).
    unfold update. rewrite Uh, Hi, Ui, Um.
    destruct (v_heap _ _ HI _ _ Hi) as (Hlt & Hpl & Hia & Hih).
    set (heap' := <[id := Info nh (i_addr i) (i_intaddr i) (i_inthandler i)]> (sb_heap s)).
    assert (Hnx : (sb_next s <= sb_next s1)%N).
    { destruct Ucase as [[_ ->]|[_ ->]]; lia. }
    assert (Hheap : forall j x, heap' !! j = Some x ->
       (j < sb_next s1)%N /\ (h_ptr (i_handler x) < sb_next s1)%N /\
       i_intaddr x = addr_in (i_addr x) /\ i_inthandler x = actor_in (h_actor (i_handler x))).
    { intros j x Hj. unfold heap' in Hj. apply lookup_insert_Some in Hj as [[<- <-]|[_ Hj]].
      - simpl. rewrite Uac. repeat split; try done; [lia|].
        destruct Ucase as [[-> ->]|[-> ->]]; [done|lia].
      - apply (v_heap _ _ HI) in Hj as (?&?&?&?). repeat split; try done; lia. }
    assert (Hinj : forall id1 id2 i1 i2, heap' !! id1 = Some i1 -> heap' !! id2 = Some i2 ->
       h_ptr (i_handler i1) = h_ptr (i_handler i2) -> id1 = id2).
    { intros j1 j2 i1 i2 H1 H2 He. unfold heap' in H1, H2.
      apply lookup_insert_Some in H1 as [[<- <-]|[N1 H1]];
      apply lookup_insert_Some in H2 as [[<- <-]|[N2 H2]]; try done; simpl in He.
      - destruct Ucase as [[-> _]|[Hp _]]; [eapply (v_inj _ _ HI); eauto|].
        apply (v_heap _ _ HI) in H2 as (_&H2&_). lia.
      - destruct Ucase as [[-> _]|[Hp _]]; [eapply (v_inj _ _ HI); eauto|].
        apply (v_heap _ _ HI) in H1 as (_&H1&_). lia.
      - eapply (v_inj _ _ HI); eauto. }
    assert (Hlive : forall u, In u l -> exists x, heap' !! su_id u = Some x /\
      i_addr x = su_addr u /\ h_mtype (i_handler x) = su_mtype u /\
      h_actor (i_handler x) = su_actor u /\ h_core (i_handler x) = su_core u /\
      addr_in (su_addr u) = true).
    { intros u Hu. destruct (v_live _ _ HI u Hu) as (x & Hx & H1 & H2 & H3 & H4 & H5). unfold heap'.
      destruct (decide (su_id u = id)) as [<-|Hne].
      - rewrite lookup_insert. eexists. split; [done|]. simpl. rewrite Hi in Hx. inversion Hx; subst x.
        rewrite Umt, Uac, Uco. done.
      - rewrite lookup_insert_ne by done. exists x. done. }
    assert (Hhof : forall u, In u l -> su_id u <> id -> hof heap' (su_id u) = hof (sb_heap s) (su_id u)).
    { intros u Hu Hne. unfold hof, heap'. by rewrite lookup_insert_ne by done. }
    assert (Hnew : hof heap' id = nh).
    { unfold hof, heap'. by rewrite lookup_insert. }
    destruct (addr_in (i_addr i)) eqn:Eaddr.
    2:{ assert (Hd : forall u, In u l -> su_id u <> id).
        { intros u Hu Hc. subst id. rewrite (live_int _ _ _ _ HI Hu Hi) in Hia. congruence. }
        split; [|by eauto]. intros s' Hs. inversion Hs; subst s'; clear Hs.
        split; simpl; try apply HI; try done.
        - intros a' m'. unfold joint_at. simpl. fold (joint_at s (a', m')). rewrite (v_int _ _ HI).
          apply filter_map_ext. intros u Hu. apply In_filter in Hu as [Hu _]. rewrite Hhof; auto.
        - intros a' m'. unfold joint_at. simpl. fold (joint_at s (a', m')). rewrite (v_ext _ _ HI).
          apply filter_map_ext. intros u Hu. apply In_filter in Hu as [Hu _]. rewrite Hhof; auto. }
    destruct (live_or_dead l id) as [(u & Hu & Hid)|Hd].
    - subst id. destruct (v_live _ _ HI u Hu) as (x & Hx & Ha & Hm & Hac & Hc & Hin).
      rewrite Hi in Hx. inversion Hx; subst x; clear Hx.
      destruct (mine_some _ _ _ _ HI Hu Hi) as [j Hj]. rewrite Ha, Hm, Hj.
      assert (Hji : j_internal j = (fun u => hof (sb_heap s) (su_id u)) <$> List.filter (matching (su_addr u) (su_mtype u) true) l).
      { rewrite <- (v_int _ _ HI). unfold joint_at. by rewrite Hj. }
      assert (Hje : j_external j = (fun u => hof (sb_heap s) (su_id u)) <$> List.filter (matching (su_addr u) (su_mtype u) false) l).
      { rewrite <- (v_ext _ _ HI). unfold joint_at. by rewrite Hj. }
      set (j' := Joint ((fun u => hof heap' (su_id u)) <$> List.filter (matching (su_addr u) (su_mtype u) true) l)
                       ((fun u => hof heap' (su_id u)) <$> List.filter (matching (su_addr u) (su_mtype u) false) l)).
      assert (Hkeep : forall f : sub -> bool, f u = false ->
         (fun u => hof heap' (su_id u)) <$> List.filter f l = (fun u => hof (sb_heap s) (su_id u)) <$> List.filter f l).
      { intros f Hf. apply filter_map_ext. intros v Hv. apply In_filter in Hv as [Hv Hfv].
        apply Hhof; auto. intros Hx. assert (v = u) by (eapply sub_eq; eauto; apply HI). congruence. }
      match goal with |- context [match ?r with Some j' => Ok _ | None => AssertFail end] =>
        assert (r = Some j') as -> end.
      { rewrite Hac. unfold j'. destruct (actor_in (su_actor u)) eqn:Ea.
        - rewrite Hji, (replace_first_spec _ _ (fun u => hof heap' (su_id u)) _ _ u); simpl; auto.
          + rewrite Hje, (Hkeep (matching _ _ false)); [done|]. unfold matching. rewrite Ea. by rewrite Bool.andb_false_r.
          + by apply nodup_filter, HI.
          + apply In_filter. split; [done|]. unfold matching. by rewrite !N.eqb_refl, Ea.
          + intros v Hv. apply In_filter in Hv as [Hv _]. by eapply ptr_test.
          + intros v Hv Hne. apply In_filter in Hv as [Hv _]. by apply Hhof.
        - rewrite Hje, (replace_first_spec _ _ (fun u => hof heap' (su_id u)) _ _ u); simpl; auto.
          + rewrite Hji, (Hkeep (matching _ _ true)); [done|]. unfold matching. rewrite Ea. by rewrite Bool.andb_false_r.
          + by apply nodup_filter, HI.
          + apply In_filter. split; [done|]. unfold matching. by rewrite !N.eqb_refl, Ea.
          + intros v Hv. apply In_filter in Hv as [Hv _]. by eapply ptr_test.
          + intros v Hv Hne. apply In_filter in Hv as [Hv _]. by apply Hhof. }
      split; [|by eauto]. intros s' Hs. inversion Hs; subst s'; clear Hs.
      assert (Hnonempty : forall a' m' b, (a', m') <> (su_addr u, su_mtype u) -> matching a' m' b u = false).
      { intros a' m' b Hne. unfold matching. destruct (N.eqb_spec (su_addr u) a') as [<-|]; [|done].
        destruct (N.eqb_spec (su_mtype u) m') as [<-|]; done. }
      split; simpl; try apply HI; try done.
      + intros a' m'. unfold joint_at. simpl.
        destruct (decide ((a', m') = (su_addr u, su_mtype u))) as [He|Hne].
        * rewrite He, lookup_insert. inversion He as [[Hz1 Hz2]]. by rewrite ?Hz1, ?Hz2.
        * rewrite lookup_insert_ne by done. fold (joint_at s (a', m')).
          rewrite (v_int _ _ HI), Hkeep; auto.
      + intros a' m'. unfold joint_at. simpl.
        destruct (decide ((a', m') = (su_addr u, su_mtype u))) as [He|Hne].
        * rewrite He, lookup_insert. inversion He as [[Hz1 Hz2]]. by rewrite ?Hz1, ?Hz2.
        * rewrite lookup_insert_ne by done. fold (joint_at s (a', m')).
          rewrite (v_ext _ _ HI), Hkeep; auto.
      + intros k. destruct (decide ((su_addr u, su_mtype u) = k)) as [<-|Hne].
        * rewrite lookup_insert. intros Hx. inversion Hx as [[Hx1 Hx2]].
          rewrite Hx1 in Hx2. apply fmap_nil_inv in Hx1. apply fmap_nil_inv in Hx2.
          destruct (actor_in (su_actor u)) eqn:Ea.
          -- assert (In u (List.filter (matching (su_addr u) (su_mtype u) true) l)) as Hy; [|by rewrite Hx1 in Hy].
             apply In_filter. split; [done|]. unfold matching. by rewrite !N.eqb_refl, Ea.
          -- assert (In u (List.filter (matching (su_addr u) (su_mtype u) false) l)) as Hy; [|by rewrite Hx2 in Hy].
             apply In_filter. split; [done|]. unfold matching. by rewrite !N.eqb_refl, Ea.
        * rewrite lookup_insert_ne by done. apply (v_mine_ne _ _ HI).
    - split.
      + intros s' Hs. exfalso.
        destruct (sb_mine s !! (i_addr i, h_mtype (i_handler i))) as [j|] eqn:Ej; [|done].
        assert (Hji := v_int _ _ HI (i_addr i) (h_mtype (i_handler i))).
        assert (Hje := v_ext _ _ HI (i_addr i) (h_mtype (i_handler i))).
        unfold joint_at in Hji, Hje. rewrite Ej in Hji, Hje. simpl in Hji, Hje.
        rewrite Hji, Hje in Hs.
        assert (Hn : forall b, replace_first (λ y, bool_decide (h_ptr y = h_ptr (i_handler i))) nh
            ((fun u => hof (sb_heap s) (su_id u)) <$> List.filter (matching (i_addr i) (h_mtype (i_handler i)) b) l) = None).
        { intros b. apply replace_first_none. intros y Hy.
          apply elem_of_list_In, elem_of_list_fmap in Hy as (v & -> & Hv).
          apply elem_of_list_In, In_filter in Hv as [Hv _]. by eapply ptr_test_dead. }
        destruct (actor_in (h_actor (i_handler i))); rewrite Hn in Hs; done.
      + intros i' Hi' Hl. inversion Hi'; subst i'. rewrite Hia in Hl. destruct (Hl eq_refl) as (u & Hu & Hx).
        exfalso. by apply (Hd u).
  Qed.

  Lemma inv_step s l o s' e : inv s l -> sstep s o = Ok (s', e) -> inv s' (fold_left spec_step e l).
  Proof.
    intros HI Hs. destruct o as [act m a|id|id t].
    - by eapply inv_subscribe.
    - by eapply inv_forget.
    - simpl in Hs. destruct (tag _ _ s id t) as [s1| |] eqn:E; simpl in Hs; try done.
      inversion Hs; subst. simpl. by eapply inv_tag.
  Qed.

  Lemma run_subs_inv ops : forall s l s' e, inv s l -> run sstep s ops = Ok (s', e) ->
    inv s' (fold_left spec_step e l).
  Proof.
    induction ops as [|o ops IH]; intros s l s' e HI Hr; simpl in Hr.
    - by inversion Hr; subst.
    - destruct (sstep s o) as [[s1 e1]| |] eqn:E1; simpl in Hr; try done.
      destruct (run sstep s1 ops) as [[s2 e2]| |] eqn:E2; simpl in Hr; try done.
      inversion Hr; subst. rewrite fold_left_app. eapply IH; [|done]. by eapply inv_step.
  Qed.

  Lemma reach_inv ops s tr : run sstep subs_init ops = Ok (s, tr) -> inv s (live addr_in tr).
  Proof. intros H. eapply run_subs_inv; [apply inv_init|done]. Qed.

  (** ** Theorems *)
  Lemma view_hof s l f : inv s l ->
    view <$> ((fun u => hof (sb_heap s) (su_id u)) <$> List.filter f l) = sview <$> List.filter f l.
  Proof.
    intros HI. rewrite <- list_fmap_compose. apply filter_map_ext. intros u Hu.
    apply In_filter in Hu as [Hu _]. destruct (v_live _ _ HI u Hu) as (i & Hi & _ & _ & H1 & H2 & _).
    unfold compose, hof, view, sview. rewrite Hi. congruence.
  Qed.

  Lemma recipients_inv s l a m : inv s l ->
    view <$> recipients s a m = sview <$> expected actor_in l a m.
  Proof.
    intros HI. unfold expected. rewrite fmap_app, <- !(view_hof s l) by done.
    rewrite <- (v_int _ _ HI), <- (v_ext _ _ HI). rewrite <- fmap_app. f_equal.
    unfold recipients, get_recipients, joint_at.
    by destruct (sb_mine s !! (a, m)).
  Qed.

  Lemma groups_inv s l a m : inv s l ->
    view <$> j_external (joint_at s (a, m)) = sview <$> List.filter (matching a m false) l /\
    view <$> j_internal (joint_at s (a, m)) = sview <$> List.filter (matching a m true) l.
  Proof.
    intros HI. by rewrite (v_int _ _ HI), (v_ext _ _ HI), !(view_hof s l) by done.
  Qed.

  Lemma recipients_mtype s l a m h : inv s l -> In h (recipients s a m) -> h_mtype h = m.
  Proof.
    intros HI Hh.
    assert (In h (j_external (joint_at s (a, m)) ++ j_internal (joint_at s (a, m)))) as H.
    { unfold recipients, get_recipients in Hh. unfold joint_at. by destruct (sb_mine s !! (a, m)). }
    rewrite (v_int _ _ HI), (v_ext _ _ HI), <- fmap_app in H.
    apply elem_of_list_In, elem_of_list_fmap in H as (u & -> & Hu).
    apply elem_of_list_In, in_app_or in Hu.
    assert (In u l /\ exists b, matching a m b u = true) as [Hul [b Hb]].
    { destruct Hu as [Hu|Hu]; apply In_filter in Hu as [? ?]; eauto. }
    destruct (v_live _ _ HI u Hul) as (i & Hi & _ & H2 & _). unfold hof. rewrite Hi, H2.
    unfold matching in Hb. apply andb_prop in Hb as [Hb _]. apply andb_prop in Hb as [_ Hb]. by apply N.eqb_eq.
  Qed.

  Lemma live_id_inv s l id i : inv s l -> sb_heap s !! id = Some i -> live_id s id ->
    i_intaddr i = true -> exists u, In u l /\ su_id u = id.
  Proof.
    intros HI Hi (i' & Hi' & Hl) Hint. rewrite Hi in Hi'. inversion Hi'; subst i'.
    destruct (Hl Hint) as (lst & Hlst & Hin). rewrite (map_default_infos _ _ _ HI _ Hlst) in Hin.
    apply elem_of_list_In, elem_of_list_fmap in Hin as (u & -> & Hu).
    apply elem_of_list_In, In_filter in Hu as [Hu _]. eauto.
  Qed.

  Lemma step_safe s l o : inv s l -> sop_ok s o -> exists s' e, sstep s o = Ok (s', e).
  Proof.
    intros HI Hok. destruct o as [act m a|id|id t]; simpl in *.
    - destruct (subscribe _ _ s act m a) as [s' id]. eauto.
    - pose proof Hok as (i & Hi & _). destruct (i_intaddr i) eqn:Hint.
      + destruct (live_id_inv _ _ _ _ HI Hi Hok Hint) as (u & Hu & <-).
        destruct (forget_live _ _ _ _ HI Hu Hi) as (s' & -> & _). simpl. eauto.
      + destruct (forget_ext _ _ _ _ HI Hi Hint) as (-> & _). simpl. eauto.
    - pose proof Hok as (i & Hi & _).
      destruct (proj2 (inv_tag _ _ id t HI) i Hi) as (s' & ->); [|simpl; eauto].
      intros Hint. by eapply live_id_inv.
  Qed.

  Lemma run_subs_safe ops : forall s l, inv s l -> guarded sstep sop_ok s ops ->
    exists s' e, run sstep s ops = Ok (s', e).
  Proof.
    induction ops as [|o ops IH]; intros s l HI Hg; simpl; [eauto|].
    destruct Hg as [Hok Hg]. destruct (step_safe _ _ _ HI Hok) as (s1 & e1 & E1).
    rewrite E1 in Hg |- *. simpl.
    destruct (IH s1 _ (inv_step _ _ _ _ _ HI E1) Hg) as (s2 & e2 & ->). simpl. eauto.
  Qed.

  Lemma upgrade_twice s h t : let '(s1, nh) := upgrade s h t in upgrade s1 nh t = (s1, nh).
  Proof.
    pose proof (upgrade_cases s h t) as H. destruct (upgrade s h t) as [s1 nh].
    destruct H as (_&_&_&_&_&_&H&_). unfold upgrade. destruct (h_tags nh) as [|t' ts]; [done|].
    simpl in H. inversion H; subst. by rewrite bool_decide_true by done.
  Qed.

  Lemma replace_first_same f x l l' :
    (forall y, f y = bool_decide (h_ptr y = h_ptr x)) -> True ->
    forall g nh, replace_first g nh l = Some l' -> nh = x ->
    (forall y, In y l' -> h_ptr y = h_ptr x -> y = x) ->
    replace_first f x l' = Some l'.
  Proof.
    intros Hf _ g nh. revert l'. induction l as [|y l IH]; simpl; intros l' Hr -> Hu; [done|].
    destruct (g y) eqn:Eg.
    - inversion Hr; subst. simpl. rewrite Hf, bool_decide_true by done. done.
    - destruct (replace_first g x l) as [l2|] eqn:El; [|done]. simpl in Hr. inversion Hr; subst. simpl.
      rewrite Hf. destruct (bool_decide (h_ptr y = h_ptr x)) eqn:Eb.
      + apply bool_decide_eq_true in Eb. f_equal. f_equal. symmetry. apply Hu; simpl; auto.
      + rewrite (IH l2); auto. intros z Hz. apply Hu. simpl. auto.
  Qed.

  Lemma tag_twice s l id t s1 : inv s l ->
    tag addr_in actor_in s id t = Ok s1 -> tag addr_in actor_in s1 id t = Ok s1.
  Proof.
    intros HI H1. pose proof (proj1 (inv_tag _ _ id t HI) _ H1) as HI1.
    unfold tag in H1. destruct (sb_heap s !! id) as [i|] eqn:Hi; [|done].
    pose proof (upgrade_cases s (i_handler i) t) as Hup. pose proof (upgrade_twice s (i_handler i) t) as Hu2.
    destruct (upgrade s (i_handler i) t) as [s0 nh].
    destruct Hup as (Uac & Umt & Uco & Uh & Ui & Um & Uhd & _).
    unfold update in H1. rewrite Uh, Hi, Ui, Um in H1.
    set (i1 := Info nh (i_addr i) (i_intaddr i) (i_inthandler i)) in *.
    assert (Hh1 : sb_heap s1 !! id = Some i1).
    { destruct (addr_in (i_addr i)).
      - destruct (sb_mine s !! _) as [j|]; [|done].
        match type of H1 with match ?r with _ => _ end = _ => destruct r; [|done] end.
        inversion H1; simpl. by rewrite lookup_insert.
      - inversion H1; simpl. by rewrite lookup_insert. }
    unfold tag. rewrite Hh1. simpl.
    assert (Hup1 : upgrade s1 nh t = (s1, nh)).
    { unfold upgrade. destruct (h_tags nh) as [|t' ts]; [done|]. simpl in Uhd. inversion Uhd; subst.
      by rewrite bool_decide_true by done. }
    rewrite Hup1. unfold update. rewrite Hh1. simpl.
    rewrite Umt, Uac.
    destruct (addr_in (i_addr i)) eqn:Ea.
    - destruct (sb_mine s !! (i_addr i, h_mtype (i_handler i))) as [j|] eqn:Ej; [|done].
      destruct (actor_in (h_actor (i_handler i))) eqn:Eact.
      + destruct (replace_first _ nh (j_internal j)) as [l1|] eqn:El; [|done]. simpl in H1.
        inversion H1; subst s1; clear H1. simpl in *. rewrite lookup_insert. simpl.
        erewrite replace_first_same; [| |done|exact El|done|].
        * simpl. rewrite insert_insert. unfold i1. simpl. rewrite insert_insert. done.
        * done.
        * intros y Hy Hp. pose proof (v_int _ _ HI1 (i_addr i) (h_mtype (i_handler i))) as Hv.
          unfold joint_at in Hv. simpl in Hv. rewrite lookup_insert in Hv. simpl in Hv. rewrite Hv in Hy.
          apply elem_of_list_In, elem_of_list_fmap in Hy as (v & -> & Hvv).
          apply elem_of_list_In, In_filter in Hvv as [Hvv _].
          destruct (v_live _ _ HI1 v Hvv) as (iv & Hiv & _). simpl in Hiv. unfold hof in Hp |- *. rewrite Hiv in Hp |- *.
          assert (su_id v = id) as He.
          { eapply (v_inj _ _ HI1); [exact Hiv|exact Hh1|done]. }
          rewrite He, lookup_insert in Hiv. inversion Hiv; subst iv. done.
      + destruct (replace_first _ nh (j_external j)) as [l1|] eqn:El; [|done]. simpl in H1.
        inversion H1; subst s1; clear H1. simpl in *. rewrite lookup_insert. simpl.
        erewrite replace_first_same; [| |done|exact El|done|].
        * simpl. rewrite insert_insert. unfold i1. simpl. rewrite insert_insert. done.
        * done.
        * intros y Hy Hp. pose proof (v_ext _ _ HI1 (i_addr i) (h_mtype (i_handler i))) as Hv.
          unfold joint_at in Hv. simpl in Hv. rewrite lookup_insert in Hv. simpl in Hv. rewrite Hv in Hy.
          apply elem_of_list_In, elem_of_list_fmap in Hy as (v & -> & Hvv).
          apply elem_of_list_In, In_filter in Hvv as [Hvv _].
          destruct (v_live _ _ HI1 v Hvv) as (iv & Hiv & _). simpl in Hiv. unfold hof in Hp |- *. rewrite Hiv in Hp |- *.
          assert (su_id v = id) as He.
          { eapply (v_inj _ _ HI1); [exact Hiv|exact Hh1|done]. }
          rewrite He, lookup_insert in Hiv. inversion Hiv; subst iv. done.
    - inversion H1; subst s1. simpl. unfold i1. simpl. rewrite insert_insert. done.
  Qed.

  (** ** Identity of the user method *)
  Definition core_inv (s : subs) : Prop :=
    forall id i, sb_heap s !! id = Some i -> id = N.succ (h_core (i_handler i)).

  Lemma core_step s o s' e : core_inv s -> sstep s o = Ok (s', e) -> core_inv s'.
  Proof.
    intros HI Hs. destruct o as [act m a|id|id t]; cbn in Hs.
    - unfold subscribe, materialize in Hs. simpl in Hs.
      destruct (addr_in a); inversion Hs; subst; intros j i Hj; simpl in Hj;
        apply lookup_insert_Some in Hj as [[<- <-]|[_ Hj]]; simpl; auto.
    - unfold forget in Hs. destruct (sb_heap s !! id) as [i|]; [|done].
      destruct (i_intaddr i); [|simpl in Hs; inversion Hs; by subst].
      destruct (sb_infos s !! i_addr i) as [lst|]; [|done].
      destruct (erase_first _ lst); [|done].
      destruct (sb_mine s !! _); [|done].
      match type of Hs with rbind (match ?r with _ => _ end) _ = _ => destruct r; [|done] end.
      simpl in Hs. inversion Hs; subst. exact HI.
    - unfold tag in Hs. destruct (sb_heap s !! id) as [i|] eqn:Hi; [|done].
      pose proof (upgrade_cases s (i_handler i) t) as Hup.
      destruct (upgrade s (i_handler i) t) as [s1 nh].
      destruct Hup as (Uac & Umt & Uco & Uh & Ui & Um & _ & _).
      assert (Hc : core_inv s1) by (intros ? ?; rewrite Uh; apply HI).
      unfold update in Hs. rewrite Uh, Hi in Hs.
      assert (Hins : forall j x, <[id := Info nh (i_addr i) (i_intaddr i) (i_inthandler i)]> (sb_heap s) !! j = Some x ->
         j = N.succ (h_core (i_handler x))).
      { intros j x Hj. apply lookup_insert_Some in Hj as [[<- <-]|[_ Hj]]; simpl; [rewrite Uco|]; auto. }
      destruct (addr_in (i_addr i)).
      + destruct (sb_mine s1 !! _); [|done].
        match type of Hs with rbind (match ?r with _ => _ end) _ = _ => destruct r; [|done] end.
        simpl in Hs. inversion Hs; subst. exact Hins.
      + simpl in Hs. inversion Hs; subst. exact Hins.
  Qed.

  Lemma reach_core ops s tr : run sstep subs_init ops = Ok (s, tr) -> core_inv s.
  Proof. apply run_inv; [apply core_step|]. intros ? ?. done. Qed.

  Lemma live_core s l u : inv s l -> core_inv s -> In u l -> su_id u = N.succ (su_core u).
  Proof.
    intros HI HC Hu. destruct (v_live _ _ HI u Hu) as (i & Hi & _ & _ & _ & Hc & _).
    rewrite <- Hc. by apply HC.
  Qed.

  Lemma expected_in l a m u : In u (expected actor_in l a m) -> In u l.
  Proof. unfold expected. intros H. apply in_app_or in H as [H|H]; by apply In_filter in H as [? _]. Qed.

  Lemma nodup_expected l a m : NoDup (su_id <$> l) -> NoDup (su_id <$> expected actor_in l a m).
  Proof.
    intros Hnd. unfold expected. rewrite fmap_app. apply NoDup_app. split; [by apply nodup_filter|].
    split; [|by apply nodup_filter].
    intros x H1 H2. apply elem_of_list_fmap in H1 as (u & -> & Hu). apply elem_of_list_fmap in H2 as (v & He & Hv).
    apply elem_of_list_In, In_filter in Hu as [Hu Mu]. apply elem_of_list_In, In_filter in Hv as [Hv Mv].
    assert (u = v) by (eapply sub_eq; eauto). subst v.
    unfold matching in Mu, Mv. apply andb_prop in Mu as [_ Mu]. apply andb_prop in Mv as [_ Mv].
    destruct (actor_in (su_actor u)); done.
  Qed.

  Lemma recipients_cores s l a m : inv s l ->
    h_core <$> recipients s a m = su_core <$> expected actor_in l a m.
  Proof.
    intros HI. pose proof (recipients_inv s l a m HI) as H.
    apply (f_equal (fmap snd)) in H. rewrite <- !list_fmap_compose in H. exact H.
  Qed.

  Lemma recipients_once ops s tr a m :
    run sstep subs_init ops = Ok (s, tr) -> NoDup (h_core <$> recipients s a m).
  Proof.
    intros Hr. pose proof (reach_inv _ _ _ Hr) as HI. pose proof (reach_core _ _ _ Hr) as HC.
    rewrite (recipients_cores _ _ _ _ HI).
    pose proof (nodup_expected _ a m (v_nodup _ _ HI)) as Hnd.
    assert (su_id <$> expected actor_in (live addr_in tr) a m =
            N.succ <$> (su_core <$> expected actor_in (live addr_in tr) a m)) as He.
    { rewrite <- list_fmap_compose. apply filter_map_ext. intros u Hu.
      eapply live_core; eauto. by eapply expected_in. }
    rewrite He in Hnd. by apply NoDup_fmap_1 in Hnd.
  Qed.

  (** ** Unsubscribed handlers *)
  Lemma gone_step id s l o s' e :
    inv s l -> (id < sb_next s)%N -> (forall u, In u l -> su_id u <> id) ->
    sstep s o = Ok (s', e) ->
    (id < sb_next s')%N /\ (forall u, In u (fold_left spec_step e l) -> su_id u <> id).
  Proof.
    intros HI Hlt Hg Hs. destruct o as [act m a|id'|id' t]; cbn in Hs.
    - unfold subscribe, materialize in Hs. simpl in Hs.
      destruct (addr_in a) eqn:Ea; inversion Hs; subst; simpl; rewrite Ea; (split; [lia|]).
      + intros u Hu. apply in_app_or in Hu as [Hu|[<-|[]]]; [by apply Hg|]. simpl. lia.
      + done.
    - destruct (forget s id') as [s1| |] eqn:E; simpl in Hs; try done. inversion Hs; subst. simpl.
      split.
      + unfold forget in E. destruct (sb_heap s !! id') as [i|]; [|done].
        destruct (i_intaddr i); [|by inversion E; subst].
        destruct (sb_infos s !! i_addr i) as [lst|]; [|done].
        destruct (erase_first _ lst); [|done].
        destruct (sb_mine s !! _); [|done].
        match type of E with match ?r with _ => _ end = _ => destruct r; [|done] end.
        inversion E; subst; done.
      + intros u Hu. apply In_filter in Hu as [Hu _]. by apply Hg.
    - destruct (tag _ _ s id' t) as [s1| |] eqn:E; simpl in Hs; try done. inversion Hs; subst. simpl.
      split; [|done].
      unfold tag in E. destruct (sb_heap s !! id') as [i|] eqn:Hi; [|done].
      pose proof (upgrade_cases s (i_handler i) t) as Hup.
      destruct (upgrade s (i_handler i) t) as [s1 nh].
      destruct Hup as (_ & _ & _ & Uh & _ & _ & _ & Uc).
      assert ((id < sb_next s1)%N) by (destruct Uc as [[_ ->]|[_ ->]]; lia).
      unfold update in E. rewrite Uh, Hi in E.
      destruct (addr_in (i_addr i)).
      + destruct (sb_mine s1 !! _); [|done].
        match type of E with match ?r with _ => _ end = _ => destruct r; [|done] end.
        inversion E; subst; done.
      + inversion E; subst; done.
  Qed.

  Lemma gone_run id ops : forall s l s' e,
    inv s l -> (id < sb_next s)%N -> (forall u, In u l -> su_id u <> id) ->
    run sstep s ops = Ok (s', e) -> forall u, In u (fold_left spec_step e l) -> su_id u <> id.
  Proof.
    induction ops as [|o ops IH]; intros s l s' e HI Hlt Hg Hr; simpl in Hr.
    - by inversion Hr; subst.
    - destruct (sstep s o) as [[s1 e1]| |] eqn:E1; simpl in Hr; try done.
      destruct (run sstep s1 ops) as [[s2 e2]| |] eqn:E2; simpl in Hr; try done.
      inversion Hr; subst. rewrite fold_left_app.
      destruct (gone_step _ _ _ _ _ _ HI Hlt Hg E1) as [? ?].
      eapply IH; eauto. by eapply inv_step.
  Qed.

  Lemma unsubscribed_silent ops1 id ops2 s tr a m h :
    run sstep subs_init (ops1 ++ Forget id :: ops2) = Ok (s, tr) ->
    In h (recipients s a m) -> N.succ (h_core h) <> id.
  Proof.
    intros Hr Hh. pose proof (reach_inv _ _ _ Hr) as HIf. pose proof (reach_core _ _ _ Hr) as HCf.
    rewrite run_app in Hr. destruct (run sstep subs_init ops1) as [[s1 e1]| |] eqn:E1; simpl in Hr; try done.
    pose proof (reach_inv _ _ _ E1) as HI1.
    destruct (forget s1 id) as [s2| |] eqn:E2; simpl in Hr; try done.
    destruct (run sstep s2 ops2) as [[s3 e3]| |] eqn:E3; simpl in Hr; try done.
    inversion Hr; subst s tr; clear Hr.
    assert (HI2 : inv s2 (drop id (live addr_in e1))).
    { apply (inv_step _ _ (Forget id) s2 [(Forget id, None)] HI1). simpl. by rewrite E2. }
    assert (Hlt : (id < sb_next s2)%N).
    { unfold forget in E2. destruct (sb_heap s1 !! id) as [i|] eqn:Hi; [|done].
      assert (Hx : (id < sb_next s1)%N) by (by apply (v_heap _ _ HI1) in Hi as [? _]).
      destruct (i_intaddr i); [|by inversion E2; subst].
      destruct (sb_infos s1 !! i_addr i) as [lst|]; [|done].
      destruct (erase_first _ lst); [|done].
      destruct (sb_mine s1 !! _); [|done].
      match type of E2 with match ?r with _ => _ end = _ => destruct r; [|done] end.
      inversion E2; subst; done. }
    assert (Hin : In (h_core h) (h_core <$> recipients s3 a m)).
    { apply elem_of_list_In, elem_of_list_fmap. exists h. split; [done|]. by apply elem_of_list_In. }
    rewrite (recipients_cores _ _ _ _ HIf) in Hin.
    apply elem_of_list_In, elem_of_list_fmap in Hin as (u & Hc & Hu).
    apply elem_of_list_In, expected_in in Hu.
    pose proof (live_core _ _ _ HIf HCf Hu) as Hid. rewrite Hc, <- Hid.
    eapply (gone_run id ops2); [exact HI2|exact Hlt| |exact E3|].
    - intros v Hv. apply In_filter in Hv as [_ Hv]. by apply Bool.negb_true_iff, N.eqb_neq in Hv.
    - unfold live in Hu. rewrite fold_left_app in Hu. exact Hu.
  Qed.

  Lemma map_filter_core (f : sub -> bool) (g : handler -> bool) l hs :
    h_core <$> hs = su_core <$> l -> view <$> hs = sview <$> l ->
    (forall u h, In u l -> h_core h = su_core u -> g h = f u) ->
    view <$> List.filter g hs = sview <$> List.filter f l.
  Proof.
    revert l; induction hs as [|h hs IH]; intros [|u l]; csimpl; intros H1 H2 Hg; try done.
    inversion H1. inversion H2. rewrite (Hg u h) by auto.
    destruct (f u); csimpl; rewrite IH with (l := l); auto. unfold view, sview. congruence.
  Qed.

  Lemma bfilter_drop_expected id l a m :
    expected actor_in (drop id l) a m = List.filter (fun v => negb (N.eqb (su_id v) id)) (expected actor_in l a m).
  Proof. unfold expected, drop. rewrite bfilter_app. by rewrite !(bfilter_comm (matching _ _ _)). Qed.

  Lemma forget_others ops s tr id s' e a m :
    run sstep subs_init ops = Ok (s, tr) -> sstep s (Forget id) = Ok (s', e) ->
    view <$> recipients s' a m =
    view <$> List.filter (fun h => negb (N.eqb (N.succ (h_core h)) id)) (recipients s a m).
  Proof.
    intros Hr Hs. pose proof (reach_inv _ _ _ Hr) as HI. pose proof (reach_core _ _ _ Hr) as HC.
    pose proof (inv_step _ _ _ _ _ HI Hs) as HI'. simpl in Hs.
    destruct (forget s id) as [s1| |]; simpl in Hs; try done. inversion Hs; subst. simpl in HI'.
    fold (drop id (live addr_in tr)) in HI'.
    rewrite (recipients_inv _ _ _ _ HI'), bfilter_drop_expected. symmetry. apply map_filter_core.
    - by apply recipients_cores.
    - by apply recipients_inv.
    - intros u h Hu Hc. apply expected_in in Hu. by rewrite Hc, <- (live_core _ _ _ HI HC Hu).
  Qed.

  Lemma recipients_spec ops s tr a m :
    run sstep subs_init ops = Ok (s, tr) ->
    view <$> recipients s a m = sview <$> expected actor_in (live addr_in tr) a m.
  Proof. intros Hr. by apply recipients_inv, (reach_inv ops). Qed.

  Lemma recipients_typed ops s tr a m h :
    run sstep subs_init ops = Ok (s, tr) -> In h (recipients s a m) -> h_mtype h = m.
  Proof. intros Hr. eapply recipients_mtype. by apply (reach_inv ops). Qed.

  Lemma tag_invisible ops s tr id t s' e a m :
    run sstep subs_init ops = Ok (s, tr) -> sstep s (Tag id t) = Ok (s', e) ->
    view <$> recipients s' a m = view <$> recipients s a m.
  Proof.
    intros Hr Hs. pose proof (reach_inv _ _ _ Hr) as HI.
    pose proof (inv_step _ _ _ _ _ HI Hs) as HI'. simpl in Hs.
    destruct (tag _ _ s id t) as [s1| |]; simpl in Hs; try done. inversion Hs; subst. simpl in HI'.
    rewrite (recipients_inv _ _ _ _ HI'). by rewrite (recipients_inv _ _ _ _ HI).
  Qed.

  Lemma tag_idempotent ops s tr id t s' :
    run sstep subs_init ops = Ok (s, tr) -> tag addr_in actor_in s id t = Ok s' ->
    tag addr_in actor_in s' id t = Ok s'.
  Proof. intros Hr Ht. eapply tag_twice; [|done]. by apply (reach_inv ops). Qed.

  Lemma protocol_safe ops :
    guarded sstep sop_ok subs_init ops -> exists s tr, run sstep subs_init ops = Ok (s, tr).
  Proof. intros Hg. eapply run_subs_safe; [apply inv_init|done]. Qed.
End P.
