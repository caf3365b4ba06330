(** Proofs about the messaging core. *)
From stdpp Require Import base list gmap.
From Verif Require Import Base SubsModel SubsSpec SubsProofs KernelModel KernelSpec.

Lemma upd_same {A} (f : N -> A) l v : upd f l v l = v.
Proof. unfold upd. by rewrite N.eqb_refl. Qed.
Lemma upd_other {A} (f : N -> A) l v x : x <> l -> upd f l v x = f x.
Proof. unfold upd. intros H. by apply N.eqb_neq in H as ->. Qed.

Lemma uplift_snoc q m : uplift (q ++ [m]) = Some (m :: q).
Proof. unfold uplift. rewrite rev_unit. by rewrite rev_involutive. Qed.

Section P.
  Variable aloc : N -> N.
  Variable hsup : N -> N.
  Notation kstep := (kstep aloc hsup).
  Notation between := (between aloc).
  Notation sents := (sents aloc).
  Notation disps := (disps aloc).
  Notation pending := (pending aloc).
  Notation lf := (List.filter).

  Definition nofwd (l : N) (q : list msg) : Prop := forall m, In m q -> m_src m <> SFwd l.

  Record kinv (w : world) (ev : list kevent) : Prop := KInv {
    k_inb : forall l m, In m (w_inb w l) -> aloc (m_addr m) = l /\ home (m_src m) <> Some l;
    k_queue : forall l m, In m (w_queue w l) -> aloc (m_addr m) = l \/ home (m_src m) = Some l;
    k_fifo : forall k d, sents k d ev = disps k d ev ++ pending k d w;
    k_tail : forall l, nofwd l (tail (w_queue w l));
    k_cur : forall l m rd, w_cur w l = Some (Cur m false rd) -> nofwd l (w_queue w l);
    k_adj : forall f l, In (ESent f) ev -> m_src f = SFwd l ->
      exists p1 r p2, pops l ev = p1 ++ r :: p2 /\ m_root f = Some (m_uid r) /\
        m_reply r = true /\
        ((p2 = [] /\ head (w_queue w l) = Some f) \/ head p2 = Some f);
    k_curpop : forall l c, w_cur w l = Some c -> exists p, pops l ev = p ++ [c_msg c];
    k_uid : forall m, In (ESent m) ev -> (m_uid m < w_uid w)%N;
    k_nodup : NoDup (m_uid <$> omap sent_of ev)
  }.

  Lemma between_refl m : between (m_src m) (aloc (m_addr m)) m = true.
  Proof. unfold KernelSpec.between. rewrite bool_decide_true by done. by rewrite N.eqb_refl. Qed.

  Lemma between_true k d m : between k d m = true <-> m_src m = k /\ aloc (m_addr m) = d.
  Proof.
    unfold KernelSpec.between. rewrite andb_true_iff, bool_decide_eq_true, N.eqb_eq. done.
  Qed.

  Lemma sents_app k d e1 e2 : sents k d (e1 ++ e2) = sents k d e1 ++ sents k d e2.
  Proof. unfold KernelSpec.sents. by rewrite omap_app, bfilter_app. Qed.
  Lemma disps_app k d e1 e2 : disps k d (e1 ++ e2) = disps k d e1 ++ disps k d e2.
  Proof. unfold KernelSpec.disps. by rewrite omap_app, bfilter_app. Qed.
  Lemma pops_app d e1 e2 : pops d (e1 ++ e2) = pops d e1 ++ pops d e2.
  Proof. unfold pops. by rewrite omap_app. Qed.

  Lemma sents_one k d m : sents k d [ESent m] = lf (between k d) [m].
  Proof. done. Qed.

  Lemma kinv_init : kinv kinit [].
  Proof.
    split; unfold nofwd; simpl; intros; try done.
    - unfold KernelSpec.pending. simpl. by destruct (home k) as [s|]; [destruct (N.eqb s d)|].
    - constructor.
  Qed.

  Lemma kinv_put_lemma w ev l m e :
    kinv w ev -> m_src m = SLoc l -> m_uid m = w_uid w ->
    (forall k d, sents k d e = lf (between k d) [m]) -> (forall k d, disps k d e = []) ->
    (forall d, pops d e = []) -> (forall x, In (ESent x) e -> x = m) -> omap sent_of e = [m] ->
    kinv (put w l m) (ev ++ e).
  Proof.
    intros HI Hs Hu Hse Hde Hpe Hx Hom. split; simpl.
    - apply HI.
    - intros l' x Hin. destruct (decide (l' = l)) as [->|Hne].
      + rewrite upd_same in Hin. apply in_app_or in Hin as [Hin|[<-|[]]]; [by apply HI|].
        right. by rewrite Hs.
      + rewrite upd_other in Hin by done. by apply HI.
    - intros k d. rewrite sents_app, disps_app, Hse, Hde, app_nil_r, (k_fifo _ _ HI), <- app_assoc.
      f_equal. unfold KernelSpec.pending. simpl.
      destruct (between k d m) eqn:Eb.
      + apply between_true in Eb as [E1 E2]. rewrite Hs in E1. subst k. simpl.
        destruct (N.eqb_spec l d) as [->|Hne].
        * rewrite upd_same, bfilter_app. simpl.
          assert (between (SLoc d) d m = true) as -> by (by apply between_true).
          assert (lf (between (SLoc d) d) (w_inb w d) = []) as ->.
          { destruct (lf (between (SLoc d) d) (w_inb w d)) as [|y ys] eqn:E; [done|].
            assert (In y (lf (between (SLoc d) d) (w_inb w d))) as Hy by (rewrite E; by left).
            apply In_filter in Hy as [Hy1 Hy2]. apply between_true in Hy2 as [Hy2 _].
            apply (k_inb _ _ HI) in Hy1 as [_ Hy1]. by rewrite Hy2 in Hy1. }
          rewrite !app_nil_r. done.
        * rewrite upd_other by done. rewrite upd_same, bfilter_app. simpl.
          assert (between (SLoc l) d m = true) as -> by (by apply between_true).
          by rewrite <- !app_assoc.
      + rewrite app_nil_r.
        assert (Hupd : forall x, lf (between k d) (upd (w_queue w) l (w_queue w l ++ [m]) x) =
                                 lf (between k d) (w_queue w x)).
        { intros x. destruct (decide (x = l)) as [->|Hne].
          - rewrite upd_same, bfilter_app. simpl. rewrite Eb. by rewrite app_nil_r.
          - by rewrite upd_other. }
        rewrite !Hupd. destruct (home k) as [s|]; [|done]. by rewrite Hupd.
    - intros l' x Hin. destruct (decide (l' = l)) as [->|Hne].
      + rewrite upd_same in Hin. destruct (w_queue w l) as [|y q] eqn:Eq; simpl in Hin; [done|].
        apply in_app_or in Hin as [Hin|[<-|[]]]; [|by rewrite Hs].
        apply (k_tail _ _ HI). by rewrite Eq.
      + rewrite upd_other in Hin by done. by apply (k_tail _ _ HI).
    - intros l' x rd Hc y Hin. destruct (decide (l' = l)) as [->|Hne].
      + rewrite upd_same in Hin. apply in_app_or in Hin as [Hin|[<-|[]]]; [|by rewrite Hs].
        by eapply (k_cur _ _ HI).
      + rewrite upd_other in Hin by done. by eapply (k_cur _ _ HI).
    - intros f l' Hin Hf. apply in_app_or in Hin as [Hin|Hin].
      + destruct (k_adj _ _ HI f l' Hin Hf) as (p1 & r & p2 & H1 & H2 & H3 & H4).
        exists p1, r, p2. rewrite pops_app, Hpe, app_nil_r. repeat split; try done.
        destruct H4 as [[-> H4]|H4]; [left|by right]. split; [done|].
        destruct (decide (l' = l)) as [->|Hne]; [|by rewrite upd_other].
        rewrite upd_same. by destruct (w_queue w l).
      + apply Hx in Hin. subst f. by rewrite Hs in Hf.
    - intros l' c Hc. destruct (k_curpop _ _ HI l' c Hc) as [p Hp]. exists p.
      by rewrite pops_app, Hpe, app_nil_r.
    - intros x Hin. apply in_app_or in Hin as [Hin|Hin].
      + pose proof (k_uid _ _ HI x Hin). lia.
      + apply Hx in Hin. subst x. lia.
    - rewrite omap_app, Hom, fmap_app. simpl. apply NoDup_app. split; [apply HI|]. split; [|apply NoDup_singleton].
      intros x Hin Hy. apply elem_of_list_singleton in Hy. subst x. rewrite Hu in Hin.
      apply elem_of_list_fmap in Hin as (y & Hy & Hin). apply elem_of_list_omap in Hin as (e' & Hin & He).
      destruct e'; try done. simpl in He. inversion He; subst.
      apply elem_of_list_In, (k_uid _ _ HI) in Hin. lia.
  Qed.

  (** Enqueueing a message that has no home queue (external thread, call). *)
  Lemma kinv_enqueue_lemma w ev m :
    kinv w ev -> home (m_src m) = None -> m_uid m = w_uid w ->
    kinv (enqueue aloc (new_uid w) m) (ev ++ [ESent m]).
  Proof.
    intros HI Hh Hu. split; simpl.
    - intros l x Hin. destruct (decide (l = aloc (m_addr m))) as [->|Hne].
      + rewrite upd_same in Hin. apply in_app_or in Hin as [Hin|[<-|[]]]; [by apply HI|]. by rewrite Hh.
      + rewrite upd_other in Hin by done. by apply HI.
    - apply HI.
    - intros k d. rewrite sents_app, disps_app, sents_one.
      assert (disps k d [ESent m] = []) as -> by done. rewrite app_nil_r, (k_fifo _ _ HI), <- app_assoc.
      f_equal. unfold KernelSpec.pending. simpl. destruct (between k d m) eqn:Eb.
      + apply between_true in Eb as [<- <-]. rewrite Hh, upd_same, bfilter_app. simpl.
        rewrite between_refl. by rewrite !app_nil_r, <- app_assoc.
      + rewrite app_nil_r. f_equal. f_equal.
        destruct (decide (d = aloc (m_addr m))) as [->|Hne].
        * rewrite upd_same, bfilter_app. simpl. rewrite Eb. by rewrite app_nil_r.
        * by rewrite upd_other.
    - apply HI.
    - apply HI.
    - intros f l Hin Hf. apply in_app_or in Hin as [Hin|[Hin|[]]].
      + rewrite pops_app. simpl. rewrite app_nil_r. by apply (k_adj _ _ HI).
      + inversion Hin; subst. by rewrite Hf in Hh.
    - intros l c Hc. rewrite pops_app. simpl. rewrite app_nil_r. by apply (k_curpop _ _ HI).
    - intros x Hin. apply in_app_or in Hin as [Hin|[Hin|[]]].
      + pose proof (k_uid _ _ HI x Hin). lia.
      + inversion Hin; subst. lia.
    - rewrite omap_app, fmap_app. simpl. apply NoDup_app. split; [apply HI|]. split; [|apply NoDup_singleton].
      intros x Hin Hy. apply elem_of_list_singleton in Hy. subst x. rewrite Hu in Hin.
      apply elem_of_list_fmap in Hin as (y & Hy & Hin). apply elem_of_list_omap in Hin as (e' & Hin & He).
      destruct e'; try done. simpl in He. inversion He; subst.
      apply elem_of_list_In, (k_uid _ _ HI) in Hin. lia.
  Qed.

  Lemma forward_calls_inv l m hs : forall w ev w' e,
    kinv w ev -> forward_calls aloc hsup w l m hs = (w', e) ->
    kinv w' (ev ++ e) /\ w_cur w' = w_cur w /\ w_queue w' = w_queue w /\ w_subs w' = w_subs w.
  Proof.
    induction hs as [|h hs IH]; intros w ev w' e HI Hf; simpl in Hf.
    - inversion Hf; subst. rewrite app_nil_r. done.
    - set (c := Msg (w_uid w) (SCall l) (hsup (h_actor h)) None 0 false (Some (m_uid m)) (Some h)) in *.
      destruct (forward_calls aloc hsup (enqueue aloc (new_uid w) c) l m hs) as [w1 e1] eqn:E1.
      inversion Hf; subst w' e.
      destruct (IH _ (ev ++ [ESent c]) _ _ (kinv_enqueue_lemma w ev c HI eq_refl eq_refl) E1) as (H1 & H2 & H3 & H4).
      rewrite <- app_assoc in H1. simpl in *. done.
  Qed.

  Lemma enqueue_set_cur wa l c x : enqueue aloc (new_uid (set_cur wa l c)) x = set_cur (enqueue aloc (new_uid wa) x) l c.
  Proof. done. Qed.

  Lemma forward_calls_cur l m hs : forall wa wb eb c, forward_calls aloc hsup wa l m hs = (wb, eb) ->
    forward_calls aloc hsup (set_cur wa l c) l m hs = (set_cur wb l c, eb).
  Proof.
    induction hs as [|h hs IH]; intros wa wb eb c Hf; simpl in Hf |- *; [by inversion Hf|].
    destruct (forward_calls aloc hsup (enqueue _ (new_uid wa) _) l m hs) as [w3 e3] eqn:E3.
    inversion Hf; subst. apply (IH _ _ _ c) in E3.
    rewrite (enqueue_set_cur wa l c). rewrite E3. done.
  Qed.

  Lemma forward_calls_pops l m hs : forall w w' e, forward_calls aloc hsup w l m hs = (w', e) ->
    forall d, pops d e = [].
  Proof.
    induction hs as [|h hs IH]; intros w w' e Hf d; simpl in Hf.
    - by inversion Hf.
    - destruct (forward_calls _ _ _ l m hs) as [w1 e1] eqn:E1. inversion Hf; subst. simpl. by eapply IH.
  Qed.

  Lemma adj_head w ev l m q f p2 :
    kinv w ev -> w_queue w l = m :: q ->
    ((p2 = [] /\ head (w_queue w l) = Some f) \/ head p2 = Some f) ->
    head (p2 ++ [m]) = Some f.
  Proof.
    intros HI Hq [[-> H]|H]; [by rewrite Hq in H|]. by destruct p2.
  Qed.

  (** Popping the head of a queue and dispatching it locally. *)
  Lemma kinv_pop_local w ev l m q ext int :
    kinv w ev -> w_cur w l = None -> w_queue w l = m :: q -> aloc (m_addr m) = l ->
    kinv (set_cur (set_queue w l q) l (Some (Cur m false false))) (ev ++ [EDisp l m ext int]).
  Proof.
    intros HI Hc Hq Ha.
    assert (Hpop : forall d, pops d [EDisp l m ext int] = if N.eqb l d then [m] else []).
    { intros d. unfold pops. simpl. by destruct (N.eqb l d). }
    assert (Htail : nofwd l q) by (pose proof (k_tail _ _ HI l) as H; by rewrite Hq in H).
    split; simpl.
    - apply HI.
    - intros l' x Hin. destruct (decide (l' = l)) as [->|Hne].
      + rewrite upd_same in Hin. apply HI. rewrite Hq. by right.
      + rewrite upd_other in Hin by done. by apply HI.
    - intros k d. rewrite sents_app, disps_app.
      assert (sents k d [EDisp l m ext int] = []) as -> by done.
      rewrite app_nil_r, (k_fifo _ _ HI), <- app_assoc. f_equal.
      unfold KernelSpec.pending, KernelSpec.disps. simpl.
      destruct (N.eqb_spec l d) as [Hld|Hne].
      + subst d. simpl. rewrite upd_same, Hq. simpl.
        assert (Hhome : (match home k with Some s => if N.eqb s l then [] else lf (between k l) (w_queue w s) | None => [] end)
            = match home k with Some s => if N.eqb s l then [] else lf (between k l) (upd (w_queue w) l q s) | None => [] end).
        { destruct (home k) as [s|]; [|done]. destruct (N.eqb_spec s l); [done|]. by rewrite upd_other. }
        rewrite Hhome. destruct (between k l m); done.
      + simpl. rewrite upd_other by done. f_equal. f_equal.
        destruct (home k) as [s|]; [|done]. destruct (N.eqb_spec s d); [done|].
        destruct (decide (s = l)) as [->|Hsl]; [|by rewrite upd_other].
        rewrite upd_same, Hq. simpl.
        destruct (between k d m) eqn:Eb; [|done]. apply between_true in Eb as [_ Eb]. congruence.
    - intros l' x Hin. destruct (decide (l' = l)) as [->|Hne].
      + rewrite upd_same in Hin. apply Htail. destruct q; [done|]. by right.
      + rewrite upd_other in Hin by done. by apply (k_tail _ _ HI).
    - intros l' x rd Hc' y Hin. destruct (decide (l' = l)) as [->|Hne].
      + rewrite upd_same in Hin. by apply Htail.
      + rewrite upd_other in Hin by done. rewrite upd_other in Hc' by done. by eapply (k_cur _ _ HI).
    - intros f l' Hin Hf. apply in_app_or in Hin as [Hin|[Hin|[]]]; [|done].
      destruct (k_adj _ _ HI f l' Hin Hf) as (p1 & r & p2 & H1 & H2 & H3 & H4).
      rewrite pops_app, Hpop. destruct (N.eqb_spec l l') as [<-|Hne].
      + exists p1, r, (p2 ++ [m]). rewrite H1, <- app_assoc. repeat split; try done. right.
        eapply adj_head; eauto.
      + exists p1, r, p2. rewrite app_nil_r. repeat split; try done. by rewrite upd_other by congruence.
    - intros l' c Hc'. rewrite pops_app, Hpop. destruct (N.eqb_spec l l') as [<-|Hne].
      + rewrite upd_same in Hc'. inversion Hc'; subst c. by eexists.
      + rewrite upd_other in Hc' by congruence. rewrite app_nil_r. by apply (k_curpop _ _ HI).
    - intros x Hin. apply in_app_or in Hin as [Hin|[Hin|[]]]; [|done]. by apply (k_uid _ _ HI).
    - rewrite omap_app. simpl. rewrite app_nil_r. apply HI.
  Qed.

  (** Handing a foreign message over. *)
  Lemma kinv_move w ev l m q :
    kinv w ev -> w_cur w l = None -> w_queue w l = m :: q -> aloc (m_addr m) <> l ->
    kinv (enqueue aloc (set_queue w l q) m) (ev ++ [EMove l m]).
  Proof.
    intros HI Hc Hq Ha.
    assert (Hpop : forall d, pops d [EMove l m] = if N.eqb l d then [m] else []).
    { intros d. unfold pops. simpl. by destruct (N.eqb l d). }
    assert (Htail : nofwd l q) by (pose proof (k_tail _ _ HI l) as H; by rewrite Hq in H).
    assert (Hhm : home (m_src m) = Some l).
    { destruct (k_queue _ _ HI l m) as [H|H]; [rewrite Hq; by left|done|done]. }
    set (D := aloc (m_addr m)) in *.
    split; simpl.
    - intros l' x Hin. fold D in Hin. destruct (decide (l' = D)) as [->|Hne].
      + rewrite upd_same in Hin. apply in_app_or in Hin as [Hin|[<-|[]]]; [by apply HI|].
        split; [done|]. rewrite Hhm. congruence.
      + rewrite upd_other in Hin by done. by apply HI.
    - intros l' x Hin. destruct (decide (l' = l)) as [->|Hne].
      + rewrite upd_same in Hin. apply HI. rewrite Hq. by right.
      + rewrite upd_other in Hin by done. by apply HI.
    - intros k d. rewrite sents_app, disps_app.
      assert (sents k d [EMove l m] = []) as -> by done.
      assert (disps k d [EMove l m] = []) as -> by done.
      rewrite !app_nil_r, (k_fifo _ _ HI). f_equal.
      unfold KernelSpec.pending. simpl. fold D.
      destruct (between k d m) eqn:Eb.
      + apply between_true in Eb as [<- Ed]. fold D in Ed. subst d.
        rewrite Hhm. destruct (N.eqb_spec l D) as [|_]; [congruence|].
        rewrite !upd_same, upd_other by congruence. rewrite Hq, bfilter_app. simpl.
        assert (between (m_src m) D m = true) as -> by (by apply between_true).
        by rewrite <- app_assoc.
      + assert (Hqs : forall x, lf (between k d) (upd (w_queue w) l q x) = lf (between k d) (w_queue w x)).
        { intros x. destruct (decide (x = l)) as [->|Hne]; [|by rewrite upd_other].
          rewrite upd_same, Hq. simpl. by rewrite Eb. }
        assert (Hin : lf (between k d) (upd (w_inb w) D (w_inb w D ++ [m]) d) = lf (between k d) (w_inb w d)).
        { destruct (decide (d = D)) as [->|Hne]; [|by rewrite upd_other].
          rewrite upd_same, bfilter_app. simpl. rewrite Eb. by rewrite app_nil_r. }
        rewrite Hin, Hqs. destruct (home k) as [s|]; [|done]. by rewrite Hqs.
    - intros l' x Hin. destruct (decide (l' = l)) as [->|Hne].
      + rewrite upd_same in Hin. apply Htail. destruct q; [done|]. by right.
      + rewrite upd_other in Hin by done. by apply (k_tail _ _ HI).
    - intros l' x rd Hc' y Hin. destruct (decide (l' = l)) as [->|Hne]; [congruence|].
      rewrite upd_other in Hin by done. by eapply (k_cur _ _ HI).
    - intros f l' Hin Hf. apply in_app_or in Hin as [Hin|[Hin|[]]]; [|done].
      destruct (k_adj _ _ HI f l' Hin Hf) as (p1 & r & p2 & H1 & H2 & H3 & H4).
      rewrite pops_app, Hpop. destruct (N.eqb_spec l l') as [<-|Hne].
      + exists p1, r, (p2 ++ [m]). rewrite H1, <- app_assoc. repeat split; try done. right.
        eapply adj_head; eauto.
      + exists p1, r, p2. rewrite app_nil_r. repeat split; try done. by rewrite upd_other by congruence.
    - intros l' c Hc'. rewrite pops_app, Hpop. destruct (N.eqb_spec l l') as [<-|Hne]; [congruence|].
      rewrite app_nil_r. by apply (k_curpop _ _ HI).
    - intros x Hin. apply in_app_or in Hin as [Hin|[Hin|[]]]; [|done]. by apply (k_uid _ _ HI).
    - rewrite omap_app. simpl. rewrite app_nil_r. apply HI.
  Qed.

  Lemma kinv_set_cur w ev l c :
    kinv w ev -> (forall c', c = Some c' -> exists c0, w_cur w l = Some c0 /\ c_msg c0 = c_msg c') ->
    (forall m rd, c = Some (Cur m false rd) -> nofwd l (w_queue w l)) ->
    kinv (set_cur w l c) ev.
  Proof.
    intros HI Hc Hn. split; simpl; try apply HI.
    - intros l' x rd Hc' y Hin. destruct (decide (l' = l)) as [->|Hne].
      + rewrite upd_same in Hc'. by eapply Hn.
      + rewrite upd_other in Hc' by done. by eapply (k_cur _ _ HI).
    - intros l' c' Hc'. destruct (decide (l' = l)) as [->|Hne].
      + rewrite upd_same in Hc'. destruct (Hc c' Hc') as (c0 & H1 & H2). rewrite <- H2. by apply (k_curpop _ _ HI).
      + rewrite upd_other in Hc' by done. by apply (k_curpop _ _ HI).
  Qed.

  Lemma kinv_ev_silent w ev l m b : kinv w ev -> kinv w (ev ++ [EEnd l m b]).
  Proof.
    intros HI. split; try apply HI.
    - intros k d. rewrite sents_app, disps_app. simpl.
      assert (sents k d [EEnd l m b] = []) as -> by done. assert (disps k d [EEnd l m b] = []) as -> by done.
      rewrite !app_nil_r. apply HI.
    - intros f l' Hin Hf. apply in_app_or in Hin as [Hin|[Hin|[]]]; [|done].
      rewrite pops_app. simpl. rewrite app_nil_r. by apply (k_adj _ _ HI).
    - intros l' c Hc. rewrite pops_app. simpl. rewrite app_nil_r. by apply (k_curpop _ _ HI).
    - intros x Hin. apply in_app_or in Hin as [Hin|[Hin|[]]]; [|done]. by apply (k_uid _ _ HI).
    - rewrite omap_app. simpl. rewrite app_nil_r. apply HI.
  Qed.

  Lemma kinv_forward w ev l m rd f :
    kinv w ev -> w_cur w l = Some (Cur m false rd) -> m_reply m = true ->
    m_src f = SFwd l -> m_uid f = w_uid w -> m_root f = Some (m_uid m) ->
    kinv (set_cur (set_queue (put w l f) l (f :: w_queue w l)) l (Some (Cur m true rd))) (ev ++ [ESent f]).
  Proof.
    intros HI Hc Hrep Hs Hu Hroot.
    pose proof (k_cur _ _ HI _ _ _ Hc) as Hno.
    split; simpl.
    - apply HI.
    - intros l' x Hin. destruct (decide (l' = l)) as [->|Hne].
      + rewrite upd_same in Hin. destruct Hin as [<-|Hin]; [right; by rewrite Hs|by apply HI].
      + rewrite !upd_other in Hin by done. by apply HI.
    - intros k d. rewrite sents_app, disps_app, sents_one.
      assert (disps k d [ESent f] = []) as -> by done. rewrite app_nil_r, (k_fifo _ _ HI), <- app_assoc.
      f_equal. unfold KernelSpec.pending. simpl.
      assert (Hnil : forall d', lf (between (SFwd l) d') (w_queue w l) = []).
      { intros d'. destruct (lf (between (SFwd l) d') (w_queue w l)) as [|y ys] eqn:E; [done|].
        assert (In y (lf (between (SFwd l) d') (w_queue w l))) as Hy by (rewrite E; by left).
        apply In_filter in Hy as [Hy1 Hy2]. apply between_true in Hy2 as [Hy2 _]. by apply Hno in Hy1. }
      destruct (between k d f) eqn:Eb.
      + apply between_true in Eb as [E1 E2]. rewrite Hs in E1. subst k. simpl.
        destruct (N.eqb_spec l d) as [Hld|Hne].
        * assert (aloc (m_addr f) = l) as E3 by congruence. clear E2. subst d. rewrite upd_same. simpl.
          assert (between (SFwd l) l f = true) as -> by (by apply between_true).
          rewrite Hnil.
          assert (lf (between (SFwd l) l) (w_inb w l) = []) as ->; [|done].
          destruct (lf (between (SFwd l) l) (w_inb w l)) as [|y ys] eqn:E; [done|].
          assert (In y (lf (between (SFwd l) l) (w_inb w l))) as Hy by (rewrite E; by left).
          apply In_filter in Hy as [Hy1 Hy2]. apply between_true in Hy2 as [Hy2 _].
          apply (k_inb _ _ HI) in Hy1 as [_ Hy1]. by rewrite Hy2 in Hy1.
        * rewrite (upd_other _ l _ d) by congruence. rewrite (upd_other _ l _ d) by congruence.
          rewrite upd_same. simpl.
          assert (between (SFwd l) d f = true) as -> by (by apply between_true).
          rewrite Hnil. by rewrite app_nil_r, <- app_assoc.
      + rewrite app_nil_r.
        assert (Hqs : forall x, lf (between k d) (upd (upd (w_queue w) l (w_queue w l ++ [f])) l (f :: w_queue w l) x) =
                                lf (between k d) (w_queue w x)).
        { intros x. destruct (decide (x = l)) as [->|Hne].
          - rewrite upd_same. simpl. by rewrite Eb.
          - by rewrite !upd_other. }
        rewrite !Hqs. destruct (home k) as [s|]; [|done]. by rewrite Hqs.
    - intros l' x Hin. destruct (decide (l' = l)) as [->|Hne].
      + rewrite upd_same in Hin. simpl in Hin. by apply Hno.
      + rewrite !upd_other in Hin by done. by apply (k_tail _ _ HI).
    - intros l' x rd' Hc' y Hin. destruct (decide (l' = l)) as [->|Hne].
      + rewrite upd_same in Hc'. done.
      + rewrite upd_other in Hc' by done. rewrite !upd_other in Hin by done. by eapply (k_cur _ _ HI).
    - intros g l' Hin Hf. apply in_app_or in Hin as [Hin|[Hin|[]]].
      + destruct (k_adj _ _ HI g l' Hin Hf) as (p1 & r & p2 & H1 & H2 & H3 & H4).
        exists p1, r, p2. rewrite pops_app. simpl. rewrite app_nil_r. repeat split; try done.
        destruct (decide (l' = l)) as [->|Hne]; [|by rewrite !upd_other].
        destruct H4 as [[-> H4]|H4]; [|by right]. exfalso.
        destruct (w_queue w l) as [|y q] eqn:Eq; [done|]. simpl in H4. inversion H4; subst y.
        apply (Hno g); [by left|done].
      + inversion Hin; subst g. rewrite Hs in Hf. inversion Hf; subst l'.
        destruct (k_curpop _ _ HI _ _ Hc) as [p Hp]. simpl in Hp.
        exists p, m, []. rewrite pops_app. simpl. rewrite app_nil_r. repeat split; try done.
        left. by rewrite upd_same.
    - intros l' c Hc'. rewrite pops_app. simpl. rewrite app_nil_r.
      destruct (decide (l' = l)) as [->|Hne].
      + rewrite upd_same in Hc'. inversion Hc'; subst c. simpl. by apply (k_curpop _ _ HI _ _ Hc).
      + rewrite upd_other in Hc' by done. by apply (k_curpop _ _ HI).
    - intros x Hin. apply in_app_or in Hin as [Hin|[Hin|[]]].
      + pose proof (k_uid _ _ HI x Hin). lia.
      + inversion Hin; subst. lia.
    - rewrite omap_app, fmap_app. simpl. apply NoDup_app. split; [apply HI|]. split; [|apply NoDup_singleton].
      intros x Hin Hy. apply elem_of_list_singleton in Hy. subst x. rewrite Hu in Hin.
      apply elem_of_list_fmap in Hin as (y & Hy & Hin). apply elem_of_list_omap in Hin as (e' & Hin & He).
      destruct e'; try done. simpl in He. inversion He; subst.
      apply elem_of_list_In, (k_uid _ _ HI) in Hin. lia.
  Qed.

  Lemma kinv_pump w ev l m r :
    kinv w ev -> w_inb w l = m :: r ->
    kinv (World (upd (w_queue w) l (w_queue w l ++ [m])) (upd (w_inb w) l r) (w_subs w) (w_cur w) (w_uid w)) ev.
  Proof.
    intros HI Hi. destruct (k_inb _ _ HI l m) as [Ha Hh]; [rewrite Hi; by left|].
    assert (Hs : m_src m <> SFwd l) by (intros H; rewrite H in Hh; done).
    split; simpl; try apply HI.
    - intros l' x Hin. destruct (decide (l' = l)) as [->|Hne].
      + rewrite upd_same in Hin. apply HI. rewrite Hi. by right.
      + rewrite upd_other in Hin by done. by apply HI.
    - intros l' x Hin. destruct (decide (l' = l)) as [->|Hne].
      + rewrite upd_same in Hin. apply in_app_or in Hin as [Hin|[<-|[]]]; [by apply HI|by left].
      + rewrite upd_other in Hin by done. by apply HI.
    - intros k d. rewrite (k_fifo _ _ HI). f_equal. unfold KernelSpec.pending. simpl.
      destruct (decide (d = l)) as [->|Hne].
      + rewrite !upd_same, Hi, bfilter_app. simpl.
        assert (Hhome : (match home k with Some s => if N.eqb s l then [] else lf (between k l) (w_queue w s) | None => [] end)
            = match home k with Some s => if N.eqb s l then [] else lf (between k l) (upd (w_queue w) l (w_queue w l ++ [m]) s) | None => [] end).
        { destruct (home k) as [s|]; [|done]. destruct (N.eqb_spec s l); [done|]. by rewrite upd_other. }
        rewrite Hhome. destruct (between k l m); simpl; by rewrite <- ?app_assoc, ?app_nil_r.
      + rewrite !(upd_other _ l _ d) by done. f_equal. f_equal.
        destruct (home k) as [s|] eqn:Ek; [|done]. destruct (N.eqb_spec s d); [done|].
        destruct (decide (s = l)) as [->|Hsl]; [|by rewrite upd_other].
        rewrite upd_same, bfilter_app. simpl.
        destruct (between k d m) eqn:Eb; [|by rewrite app_nil_r].
        apply between_true in Eb as [_ Eb]. congruence.
    - intros l' x Hin. destruct (decide (l' = l)) as [->|Hne].
      + rewrite upd_same in Hin. destruct (w_queue w l) as [|y q] eqn:Eq; simpl in Hin; [done|].
        apply in_app_or in Hin as [Hin|[<-|[]]]; [|done]. apply (k_tail _ _ HI). by rewrite Eq.
      + rewrite upd_other in Hin by done. by apply (k_tail _ _ HI).
    - intros l' x rd Hc y Hin. destruct (decide (l' = l)) as [->|Hne].
      + rewrite upd_same in Hin. apply in_app_or in Hin as [Hin|[<-|[]]]; [|done]. by eapply (k_cur _ _ HI).
      + rewrite upd_other in Hin by done. by eapply (k_cur _ _ HI).
    - intros f l' Hin Hf. destruct (k_adj _ _ HI f l' Hin Hf) as (p1 & x & p2 & H1 & H2 & H3 & H4).
      exists p1, x, p2. repeat split; try done.
      destruct H4 as [[-> H4]|H4]; [left|by right]. split; [done|].
      destruct (decide (l' = l)) as [->|Hne]; [|by rewrite upd_other].
      rewrite upd_same. by destruct (w_queue w l).
  Qed.

  Lemma kinv_same w w' ev :
    kinv w ev -> w_queue w' = w_queue w -> w_inb w' = w_inb w -> w_cur w' = w_cur w -> w_uid w' = w_uid w ->
    kinv w' ev.
  Proof.
    intros [] H1 H2 H3 H4.
    split; unfold KernelSpec.pending in *; rewrite ?H1, ?H2, ?H3, ?H4; auto.
  Qed.

  Lemma kinv_step w ev o w' e : kinv w ev -> kstep w o = Ok (w', e) -> kinv w' (ev ++ e).
  Proof.
    intros HI Hs. destruct o as [l a nx ty rep|n a ty|l|l|l origin|l a nx|l kept|l so]; simpl in Hs.
    - inversion Hs; subst. apply kinv_put_lemma; try done. intros x [H|[]]. by inversion H.
    - inversion Hs; subst. by apply kinv_enqueue_lemma.
    - destruct (w_inb w l) as [|m r] eqn:Ei; inversion Hs; subst; rewrite app_nil_r; [done|].
      by apply kinv_pump.
    - unfold dispatch in Hs. destruct (w_cur w l) as [c|] eqn:Ec; [inversion Hs; subst; by rewrite app_nil_r|].
      destruct (w_queue w l) as [|m q] eqn:Eq; [inversion Hs; subst; by rewrite app_nil_r|].
      unfold addr_in in Hs. destruct (N.eqb_spec (aloc (m_addr m)) l) as [Ha|Ha].
      + set (j := joint_at (w_subs w l) (m_addr m, m_type m)) in *.
        destruct (forward_calls aloc hsup (set_queue w l q) l m (j_external j)) as [w2 e2] eqn:Ef.
        inversion Hs; subst w' e; clear Hs.
        pose proof (kinv_pop_local w ev l m q (j_external j) (j_internal j) HI Ec Eq Ha) as HI1.
        apply (forward_calls_cur _ _ _ _ _ _ (Some (Cur m false false))) in Ef.
        destruct (forward_calls_inv _ _ _ _ _ _ _ HI1 Ef) as (H1 & _).
        by rewrite <- app_assoc in H1.
      + inversion Hs; subst. by apply kinv_move.
    - unfold forward in Hs. destruct (w_cur w l) as [[m [|] rd]|] eqn:Ec;
        try (inversion Hs; subst; by rewrite app_nil_r).
      destruct (m_reply m) eqn:Er; [|inversion Hs; subst; by rewrite app_nil_r].
      simpl in Hs. rewrite upd_same, uplift_snoc in Hs. inversion Hs; subst.
      by eapply kinv_forward.
    - destruct (w_cur w l) as [[m rp rd]|] eqn:Ec; [|inversion Hs; subst; by rewrite app_nil_r].
      inversion Hs; subst; clear Hs.
      set (m' := Msg (w_uid w) (SLoc l) a nx (m_type m) (m_reply m) None (m_handler m)).
      assert (HI1 : kinv (put w l m') (ev ++ [ESent m'])).
      { apply kinv_put_lemma; try done. intros x [H|[]]. by inversion H. }
      apply kinv_set_cur; [done| |].
      + intros c' Hc'. inversion Hc'; subst. exists (Cur m rp rd). done.
      + intros m0 rd0 H0. inversion H0; subst. by eapply (k_cur _ _ HI1).
    - unfold end_dispatch in Hs. destruct (w_cur w l) as [[m rp rd]|] eqn:Ec; [|inversion Hs; subst; by rewrite app_nil_r].
      assert (HI1 : forall b, kinv (set_cur w l None) (ev ++ [EEnd l m b])).
      { intros b. apply kinv_ev_silent. apply kinv_set_cur; done. }
      destruct (m_next m) as [nx|]; [|inversion Hs; subst; apply HI1].
      destruct (kept || rd); [inversion Hs; subst; apply HI1|].
      inversion Hs; subst; clear Hs.
      match goal with |- kinv (put _ _ ?m0) _ => set (m' := m0) end.
      change [EEnd l m true; ESent m'] with ([EEnd l m true] ++ [ESent m']). rewrite app_assoc.
      apply kinv_put_lemma; try done. intros x [H|[]]. by inversion H.
    - destruct (sstep _ _ (w_subs w l) so) as [[s' e']| |]; simpl in Hs; try done.
      inversion Hs; subst. rewrite app_nil_r. by eapply kinv_same.
  Qed.

  Lemma run_kinv ops : forall w ev w' e, kinv w ev -> run kstep w ops = Ok (w', e) -> kinv w' (ev ++ e).
  Proof.
    induction ops as [|o ops IH]; intros w ev w' e HI Hr; simpl in Hr.
    - inversion Hr; subst. by rewrite app_nil_r.
    - destruct (kstep w o) as [[w1 e1]| |] eqn:E1; simpl in Hr; try done.
      destruct (run kstep w1 ops) as [[w2 e2]| |] eqn:E2; simpl in Hr; try done.
      inversion Hr; subst. rewrite app_assoc. eapply IH; [|done]. by eapply kinv_step.
  Qed.

  Lemma reach_kinv ops w ev : run kstep kinit ops = Ok (w, ev) -> kinv w ev.
  Proof. intros H. apply (run_kinv ops kinit [] w ev); [apply kinv_init|done]. Qed.

  (** ** Prefix order and conservation *)
  Lemma fifo ops w ev k d : run kstep kinit ops = Ok (w, ev) -> disps k d ev `prefix_of` sents k d ev.
  Proof. intros Hr. rewrite (k_fifo _ _ (reach_kinv _ _ _ Hr)). by exists (pending k d w). Qed.

  Lemma conservation ops w ev k d : run kstep kinit ops = Ok (w, ev) ->
    sents k d ev = disps k d ev ++ pending k d w.
  Proof. intros Hr. apply (k_fifo _ _ (reach_kinv _ _ _ Hr)). Qed.

  Lemma quiet_pending w k d :
    (forall l, w_queue w l = []) -> (forall l, w_inb w l = []) -> pending k d w = [].
  Proof.
    intros H1 H2. unfold KernelSpec.pending. rewrite H1, H2. simpl.
    destruct (home k) as [s|]; [|done]. destruct (N.eqb s d); [done|]. by rewrite H1.
  Qed.

  Lemma all_delivered ops w ev k d : run kstep kinit ops = Ok (w, ev) ->
    (forall l, w_queue w l = []) -> (forall l, w_inb w l = []) -> disps k d ev = sents k d ev.
  Proof.
    intros Hr H1 H2. rewrite (conservation _ _ _ k d Hr), (quiet_pending _ _ _ H1 H2). by rewrite app_nil_r.
  Qed.

  Lemma uids_unique ops w ev : run kstep kinit ops = Ok (w, ev) -> NoDup (m_uid <$> omap sent_of ev).
  Proof. intros Hr. apply (k_nodup _ _ (reach_kinv _ _ _ Hr)). Qed.

  (** ** Dispatched messages were sent, and are at home *)
  Definition disp_of (e : kevent) : option msg := match e with EDisp _ m _ _ => Some m | _ => None end.

  Record kinv2 (w : world) (ev : list kevent) : Prop := KInv2 {
    k2_pend : forall l m, In m (w_queue w l) \/ In m (w_inb w l) -> In (ESent m) ev;
    k2_disp : forall l m ext int, In (EDisp l m ext int) ev -> In (ESent m) ev /\ aloc (m_addr m) = l;
    k2_move : forall l m, In (EMove l m) ev -> In (ESent m) ev /\ aloc (m_addr m) <> l
  }.

  Lemma fc_events l m hs : forall w w' e x, forward_calls aloc hsup w l m hs = (w', e) ->
    In x e -> exists c, x = ESent c.
  Proof.
    induction hs as [|h hs IH]; intros w w' e x Hf Hx; simpl in Hf; [by inversion Hf; subst|].
    destruct (forward_calls aloc hsup (enqueue _ (new_uid w) _) l m hs) as [w1 e1] eqn:E1.
    inversion Hf; subst. destruct Hx as [<-|Hx]; [by eexists|by eapply IH].
  Qed.

  Lemma fc_pend l m hs : forall w w' e l' x, forward_calls aloc hsup w l m hs = (w', e) ->
    In x (w_inb w' l') -> In x (w_inb w l') \/ In (ESent x) e.
  Proof.
    induction hs as [|h hs IH]; intros w w' e l' x Hf Hx; simpl in Hf; [inversion Hf; subst; auto|].
    destruct (forward_calls aloc hsup (enqueue _ (new_uid w) _) l m hs) as [w1 e1] eqn:E1.
    inversion Hf; subst. destruct (IH _ _ _ _ _ E1 Hx) as [H|H]; [|right; by right].
    simpl in H. destruct (decide (l' = aloc (hsup (h_actor h)))) as [->|Hne].
    - rewrite upd_same in H. apply in_app_or in H as [H|[<-|[]]]; [by left|]. right. by left.
    - rewrite upd_other in H by done. by left.
  Qed.

  Lemma fc_queue l m hs : forall w w' e, forward_calls aloc hsup w l m hs = (w', e) ->
    w_queue w' = w_queue w /\ w_subs w' = w_subs w /\ w_cur w' = w_cur w.
  Proof.
    induction hs as [|h hs IH]; intros w w' e Hf; simpl in Hf; [inversion Hf; subst; auto|].
    destruct (forward_calls aloc hsup (enqueue _ (new_uid w) _) l m hs) as [w1 e1] eqn:E1.
    inversion Hf; subst. apply IH in E1 as (->&->&->). done.
  Qed.

  Ltac inv_ok H := inversion H; subst; clear H.

  Lemma kinv2_add_sent w ev m w' :
    kinv2 w ev ->
    (forall l x, In x (w_queue w' l) \/ In x (w_inb w' l) -> (In x (w_queue w l) \/ In x (w_inb w l)) \/ x = m) ->
    kinv2 w' (ev ++ [ESent m]).
  Proof.
    intros [H1 H2 H3] Hp. split.
    - intros l x Hx. apply Hp in Hx as [Hx| ->]; apply in_or_app; [left; by eapply H1|right; by left].
    - intros l x ext int Hx. apply in_app_or in Hx as [Hx|[Hx|[]]]; [|done].
      apply H2 in Hx as [? ?]. split; [apply in_or_app; by left|done].
    - intros l x Hx. apply in_app_or in Hx as [Hx|[Hx|[]]]; [|done].
      apply H3 in Hx as [? ?]. split; [apply in_or_app; by left|done].
  Qed.

  Lemma in_upd_app {l l' : N} {f : N -> list msg} {m x} :
    In x (upd f l (f l ++ [m]) l') -> In x (f l') \/ x = m.
  Proof.
    destruct (decide (l' = l)) as [->|Hne].
    - rewrite upd_same. intros H. apply in_app_or in H as [H|[<-|[]]]; auto.
    - rewrite upd_other by done. auto.
  Qed.

  Lemma kinv2_put w ev l m : kinv2 w ev -> kinv2 (put w l m) (ev ++ [ESent m]).
  Proof.
    intros HI. eapply kinv2_add_sent; [done|]. simpl. intros l' x [H|H]; [|auto].
    apply in_upd_app in H. tauto.
  Qed.

  Lemma kinv2_enqueue_sent w ev m : kinv2 w ev -> kinv2 (enqueue aloc (new_uid w) m) (ev ++ [ESent m]).
  Proof.
    intros HI. eapply kinv2_add_sent; [done|]. simpl. intros l' x [H|H]; [auto|].
    apply in_upd_app in H. tauto.
  Qed.

  Lemma kinv2_calls l m hs : forall w ev w' e, kinv2 w ev ->
    forward_calls aloc hsup w l m hs = (w', e) -> kinv2 w' (ev ++ e).
  Proof.
    induction hs as [|h hs IH]; intros w ev w' e HI Hf; simpl in Hf.
    - inv_ok Hf. by rewrite app_nil_r.
    - destruct (forward_calls aloc hsup (enqueue _ (new_uid w) _) l m hs) as [w1 e1] eqn:E1.
      inv_ok Hf. eapply IH in E1; [|by apply kinv2_enqueue_sent]. by rewrite <- app_assoc in E1.
  Qed.

  Lemma kinv2_mono w w' ev ev' :
    kinv2 w ev -> (forall l x, In x (w_queue w' l) \/ In x (w_inb w' l) -> exists l', In x (w_queue w l') \/ In x (w_inb w l')) ->
    (forall x, In x ev -> In x ev') ->
    (forall l m ext int, In (EDisp l m ext int) ev' -> In (EDisp l m ext int) ev \/
       (In (ESent m) ev' /\ aloc (m_addr m) = l)) ->
    (forall l m, In (EMove l m) ev' -> In (EMove l m) ev \/ (In (ESent m) ev' /\ aloc (m_addr m) <> l)) ->
    kinv2 w' ev'.
  Proof.
    intros [H1 H2 H3] Hp Hm Hd Hv. split.
    - intros l x Hx. apply Hp in Hx as [l' Hx]. apply Hm. by eapply H1.
    - intros l m ext int Hx. apply Hd in Hx as [Hx|Hx]; [|done]. apply H2 in Hx as [? ?]. auto.
    - intros l m Hx. apply Hv in Hx as [Hx|Hx]; [|done]. apply H3 in Hx as [? ?]. auto.
  Qed.

  Lemma kinv2_step w ev o w' e : kinv2 w ev -> kstep w o = Ok (w', e) -> kinv2 w' (ev ++ e).
  Proof.
    intros HI Hs. destruct o as [l a nx ty rep|n a ty|l|l|l origin|l a nx|l kept|l so]; simpl in Hs.
    - inv_ok Hs. by apply kinv2_put.
    - inv_ok Hs. by apply kinv2_enqueue_sent.
    - destruct (w_inb w l) as [|m r] eqn:Ei; inv_ok Hs; rewrite app_nil_r; [done|].
      eapply kinv2_mono; eauto. simpl. intros l' x [H|H].
      + apply in_upd_app in H as [H| ->]; [by eauto|]. exists l. rewrite Ei. right. by left.
      + destruct (decide (l' = l)) as [->|Hne].
        * rewrite upd_same in H. exists l. rewrite Ei. right. by right.
        * rewrite upd_other in H by done. eauto.
    - unfold dispatch in Hs. destruct (w_cur w l) as [c|] eqn:Ec; [inv_ok Hs; by rewrite app_nil_r|].
      destruct (w_queue w l) as [|m q] eqn:Eq; [inv_ok Hs; by rewrite app_nil_r|].
      assert (Hm : In (ESent m) ev) by (eapply (k2_pend _ _ HI l); rewrite Eq; left; by left).
      assert (Hq : forall l' x, In x (upd (w_queue w) l q l') -> In x (w_queue w l')).
      { intros l' x H. destruct (decide (l' = l)) as [->|Hne].
        - rewrite upd_same in H. rewrite Eq. by right.
        - by rewrite upd_other in H. }
      unfold addr_in in Hs. destruct (N.eqb_spec (aloc (m_addr m)) l) as [Ha|Ha].
      + set (j := joint_at (w_subs w l) (m_addr m, m_type m)) in *.
        destruct (forward_calls aloc hsup (set_queue w l q) l m (j_external j)) as [w2 e2] eqn:Ef.
        inversion Hs; subst w' e; clear Hs.
        assert (HI1 : kinv2 (set_queue w l q) (ev ++ [EDisp l m (j_external j) (j_internal j)])).
        { eapply kinv2_mono; [done|..]; simpl.
          - intros l' x [H|H]; eauto.
          - intros x H. apply in_or_app. auto.
          - intros l' x ext int H. apply in_app_or in H as [H|[H|[]]]; [by left|]. inversion H; subst x l' ext int.
            right. split; [apply in_or_app; by left|done].
          - intros l' x H. apply in_app_or in H as [H|[H|[]]]; [by left|done]. }
        eapply kinv2_calls in Ef; [|exact HI1]. rewrite <- app_assoc in Ef.
        destruct Ef as [F1 F2 F3]. split; auto.
      + inv_ok Hs. eapply kinv2_mono; [done|..]; simpl.
        * intros l' x [H|H]; [eauto|]. destruct (decide (l' = aloc (m_addr m))) as [->|Hne].
          -- rewrite upd_same in H. apply in_app_or in H as [H|[<-|[]]]; [eauto|]. exists l. rewrite Eq. left. by left.
          -- rewrite upd_other in H by done. eauto.
        * intros x H. apply in_or_app. auto.
        * intros l' x ext int H. apply in_app_or in H as [H|[H|[]]]; [by left|done].
        * intros l' x H. apply in_app_or in H as [H|[H|[]]]; [by left|]. inversion H; subst x l'. right.
          split; [apply in_or_app; by left|done].
    - unfold forward in Hs. destruct (w_cur w l) as [[m [|] rd]|] eqn:Ec;
        try (inv_ok Hs; by rewrite app_nil_r).
      destruct (m_reply m) eqn:Er; [|inv_ok Hs; by rewrite app_nil_r].
      simpl in Hs. rewrite upd_same, uplift_snoc in Hs. inv_ok Hs.
      eapply kinv2_add_sent; [done|]. simpl. intros l' x [H|H]; [|auto].
      destruct (decide (l' = l)) as [->|Hne].
      + rewrite upd_same in H. destruct H as [<-|H]; auto.
      + rewrite !upd_other in H by done. auto.
    - destruct (w_cur w l) as [[m rp rd]|] eqn:Ec; [|inv_ok Hs; by rewrite app_nil_r].
      inv_ok Hs. match goal with |- kinv2 (set_cur (put _ _ ?x) _ _) _ => destruct (kinv2_put w ev l x HI) as [F1 F2 F3] end.
      split; auto.
    - unfold end_dispatch in Hs. destruct (w_cur w l) as [[m rp rd]|] eqn:Ec; [|inv_ok Hs; by rewrite app_nil_r].
      assert (HI1 : forall b, kinv2 (set_cur w l None) (ev ++ [EEnd l m b])).
      { intros b. eapply kinv2_mono; [done|..]; simpl.
        - intros l' x H. eauto.
        - intros x H. apply in_or_app. auto.
        - intros l' x ext int H. apply in_app_or in H as [H|[H|[]]]; [by left|done].
        - intros l' x H. apply in_app_or in H as [H|[H|[]]]; [by left|done]. }
      destruct (m_next m) as [nx|]; [|inv_ok Hs; apply HI1].
      destruct (kept || rd); [inv_ok Hs; apply HI1|].
      inv_ok Hs.
      match goal with |- kinv2 (put _ _ ?m0) _ => set (m' := m0) end.
      change [EEnd l m true; ESent m'] with ([EEnd l m true] ++ [ESent m']). rewrite app_assoc.
      by apply kinv2_put.
    - destruct (sstep _ _ (w_subs w l) so) as [[s' e']| |]; simpl in Hs; try done.
      inv_ok Hs. rewrite app_nil_r. destruct HI as [F1 F2 F3]. split; auto.
  Qed.

  Lemma run_kinv2 ops : forall w ev w' e, kinv2 w ev -> run kstep w ops = Ok (w', e) -> kinv2 w' (ev ++ e).
  Proof.
    induction ops as [|o ops IH]; intros w ev w' e HI Hr; simpl in Hr.
    - inversion Hr; subst. by rewrite app_nil_r.
    - destruct (kstep w o) as [[w1 e1]| |] eqn:E1; simpl in Hr; try done.
      destruct (run kstep w1 ops) as [[w2 e2]| |] eqn:E2; simpl in Hr; try done.
      inversion Hr; subst. rewrite app_assoc. eapply IH; [|done]. by eapply kinv2_step.
  Qed.

  Lemma reach_kinv2 ops w ev : run kstep kinit ops = Ok (w, ev) -> kinv2 w ev.
  Proof.
    intros H. apply (run_kinv2 ops kinit [] w ev); [|done]. split; simpl; try done. intros ? ? [[]|[]].
  Qed.

  Lemma uid_inj l (a b : msg) : NoDup (m_uid <$> l) -> In a l -> In b l -> m_uid a = m_uid b -> a = b.
  Proof.
    revert a b. induction l as [|c l IHl]; csimpl; intros a b Hn Ha Hb He; [done|].
    apply NoDup_cons in Hn as [Hn1 Hn2].
    destruct Ha as [->|Ha], Hb as [->|Hb]; auto; exfalso; apply Hn1; apply elem_of_list_fmap.
    - exists b. split; [done|]. by apply elem_of_list_In.
    - exists a. split; [done|]. by apply elem_of_list_In.
  Qed.

  (** ** Dispatched at most once, globally *)
  Lemma nodup_by_filter (S L : list msg) :
    NoDup (m_uid <$> S) -> (forall x, In x L -> In x S) ->
    (forall k d, NoDup (m_uid <$> lf (between k d) L)) -> NoDup (m_uid <$> L).
  Proof.
    intros HS. induction L as [|x L IH]; csimpl; intros Hin Hf; [constructor|].
    constructor.
    - intros Hx. apply elem_of_list_fmap in Hx as (y & Hy & HyL). apply elem_of_list_In in HyL.
      assert (x = y) as <-.
      { eapply (uid_inj S); auto. }
      specialize (Hf (m_src x) (aloc (m_addr x))). rewrite between_refl in Hf. csimpl in Hf.
      apply NoDup_cons in Hf as [Hf _]. apply Hf. apply elem_of_list_fmap. exists x. split; [done|].
      apply elem_of_list_In, In_filter. split; [done|]. apply between_refl.
    - apply IH; [auto|]. intros k d. specialize (Hf k d). destruct (between k d x); csimpl in Hf; [|done].
      by apply NoDup_cons in Hf as [_ Hf].
  Qed.

  Lemma sent_in ev m : In m (omap sent_of ev) <-> In (ESent m) ev.
  Proof.
    rewrite <- !elem_of_list_In, elem_of_list_omap. split.
    - intros (e & He & Hm). destruct e; try done. simpl in Hm. by inversion Hm; subst.
    - intros H. exists (ESent m). done.
  Qed.

  Lemma disp_filter ev k d :
    (forall l m ext int, In (EDisp l m ext int) ev -> aloc (m_addr m) = l) ->
    lf (between k d) (omap disp_of ev) = disps k d ev.
  Proof.
    unfold KernelSpec.disps. induction ev as [|e ev IH]; intros H; [done|]. csimpl.
    assert (IH' := IH (fun l m ext int Hx => H l m ext int (or_intror Hx))).
    destruct e as [m|l m|l m ext int|l m b]; simpl; try done.
    assert (Ha : aloc (m_addr m) = l) by (eapply H; by left).
    destruct (N.eqb_spec l d) as [->|Hne]; simpl.
    - by rewrite IH'.
    - destruct (between k d m) eqn:Eb; [|done]. apply between_true in Eb as [_ Eb]. congruence.
  Qed.

  Lemma nodup_prefix {A} (l1 l2 : list A) : l1 `prefix_of` l2 -> NoDup l2 -> NoDup l1.
  Proof. intros [l3 ->] H. by apply NoDup_app in H as [H _]. Qed.

  Lemma nodup_filter_uid (f : msg -> bool) l : NoDup (m_uid <$> l) -> NoDup (m_uid <$> lf f l).
  Proof.
    induction l as [|x l IH]; csimpl; intros H; [done|].
    apply NoDup_cons in H as [H1 H2]. destruct (f x); csimpl; [|auto].
    constructor; [|auto]. intros Hc. apply H1.
    apply elem_of_list_fmap in Hc as (y & -> & Hy). apply elem_of_list_fmap. exists y.
    split; [done|]. apply elem_of_list_In. apply elem_of_list_In, In_filter in Hy. tauto.
  Qed.

  Lemma disp_once ops w ev : run kstep kinit ops = Ok (w, ev) -> NoDup (m_uid <$> omap disp_of ev).
  Proof.
    intros Hr. pose proof (reach_kinv _ _ _ Hr) as HI. pose proof (reach_kinv2 _ _ _ Hr) as HI2.
    apply (nodup_by_filter (omap sent_of ev)).
    - apply HI.
    - intros x Hx. apply sent_in. rewrite <- elem_of_list_In, elem_of_list_omap in Hx.
      destruct Hx as (e & He & Hx). destruct e; try done. simpl in Hx. inversion Hx; subst.
      apply elem_of_list_In in He. by apply (k2_disp _ _ HI2) in He as [? _].
    - intros k d. rewrite disp_filter by (intros; by eapply (k2_disp _ _ HI2)).
      eapply nodup_prefix; [|apply (nodup_filter_uid (between k d) _ (k_nodup _ _ HI))].
      destruct (fifo _ _ _ k d Hr) as [l3 Hl]. unfold KernelSpec.sents in Hl. rewrite Hl.
      rewrite fmap_app. by eexists.
  Qed.

  Lemma dispatched_was_sent ops w ev l m ext int :
    run kstep kinit ops = Ok (w, ev) -> In (EDisp l m ext int) ev ->
    In (ESent m) ev /\ aloc (m_addr m) = l.
  Proof. intros Hr. apply (k2_disp _ _ (reach_kinv2 _ _ _ Hr)). Qed.

  (** ** Responses *)
  Lemma pops_filter ev k d :
    (forall l m, In (EMove l m) ev -> aloc (m_addr m) <> l) ->
    lf (between k d) (pops d ev) = disps k d ev.
  Proof.
    unfold KernelSpec.disps, pops. induction ev as [|e ev IH]; intros H; [done|]. csimpl.
    assert (IH' := IH (fun l m Hx => H l m (or_intror Hx))).
    destruct e as [m|l m|l m ext int|l m b]; simpl; try done.
    - assert (Ha : aloc (m_addr m) <> l) by (apply H; by left).
      destruct (N.eqb_spec l d) as [->|Hne]; simpl; [|done].
      destruct (between k d m) eqn:Eb; [|done]. apply between_true in Eb as [_ Eb]. congruence.
    - destruct (N.eqb_spec l d) as [->|Hne]; simpl; by rewrite IH'.
  Qed.

  Lemma nodup_split_eq (l1 l2 l1' l2' : list msg) x x' :
    m_uid x = m_uid x' -> NoDup (m_uid <$> (l1 ++ x :: l2)) ->
    l1 ++ x :: l2 = l1' ++ x' :: l2' -> l1 = l1' /\ x = x' /\ l2 = l2'.
  Proof.
    revert l1'. induction l1 as [|a l1 IH]; intros [|b l1'] Hu Hnd He; csimpl in *.
    - by inversion He.
    - inversion He; subst. exfalso. apply NoDup_cons in Hnd as [Hnd _]. apply Hnd.
      rewrite fmap_app. csimpl. rewrite Hu. apply elem_of_app. right. by left.
    - inversion He; subst. exfalso. apply NoDup_cons in Hnd as [Hnd _]. apply Hnd.
      rewrite fmap_app. csimpl. rewrite Hu. apply elem_of_app. right. by left.
    - inversion He as [[H1 H2]]. subst b. apply NoDup_cons in Hnd as [_ Hnd].
      destruct (IH l1' Hu Hnd H2) as (-> & -> & ->). done.
  Qed.

  Lemma fwd_unique_root ops w ev f l :
    run kstep kinit ops = Ok (w, ev) -> In (ESent f) ev -> m_src f = SFwd l ->
    exists r, m_root f = Some (m_uid r) /\ In r (pops l ev) /\ m_reply r = true.
  Proof.
    intros Hr Hf Hs. destruct (k_adj _ _ (reach_kinv _ _ _ Hr) f l Hf Hs) as (p1 & r & p2 & H1 & H2 & H3 & _).
    exists r. repeat split; try done. rewrite H1. apply in_or_app. right. by left.
  Qed.

  Lemma response_order ops w ev f l k r a m1 b c m2 d :
    run kstep kinit ops = Ok (w, ev) ->
    In (ESent f) ev -> m_src f = SFwd l -> m_root f = Some (m_uid r) ->
    sents k l ev = a ++ m1 :: b ++ r :: c ++ m2 :: d ->
    exists p1 p2, pops l ev = p1 ++ r :: p2 /\
      (head p2 = Some f \/ (p2 = [] /\ head (w_queue w l) = Some f)) /\
      In m1 p1 /\ ~ In m2 p1.
  Proof.
    intros Hr Hf Hs Hroot Hse.
    pose proof (reach_kinv _ _ _ Hr) as HI. pose proof (reach_kinv2 _ _ _ Hr) as HI2.
    destruct (k_adj _ _ HI f l Hf Hs) as (p1 & r' & p2 & H1 & H2 & H3 & H4).
    assert (Hnd : NoDup (m_uid <$> sents k l ev)) by (apply nodup_filter_uid, HI).
    assert (Hrb : In r (sents k l ev)).
    { rewrite Hse. apply in_or_app. right. right. apply in_or_app. right. by left. }
    assert (Hu : m_uid r' = m_uid r) by (rewrite Hroot in H2; by inversion H2).
    assert (r' = r) as ->.
    { (* both were sent *)
      assert (Hr1 : In (ESent r) ev).
      { unfold KernelSpec.sents in Hrb. apply In_filter in Hrb as [Hrb _]. by apply sent_in. }
      assert (Hr2 : In (ESent r') ev).
      { assert (In r' (pops l ev)) as Hp by (rewrite H1; apply in_or_app; right; by left).
        unfold pops in Hp. rewrite <- elem_of_list_In, elem_of_list_omap in Hp.
        destruct Hp as (e & He & Hp). apply elem_of_list_In in He.
        destruct e as [|l' m'|l' m' ? ?|]; try done; simpl in Hp;
          destruct (N.eqb_spec l' l); try done; inversion Hp; subst.
        - by apply (k2_move _ _ HI2) in He as [? _].
        - by apply (k2_disp _ _ HI2) in He as [? _]. }
      eapply (uid_inj (omap sent_of ev)); [apply HI|by apply sent_in|by apply sent_in|done]. }
    exists p1, p2. split; [done|]. split; [tauto|].
    pose proof (k_fifo _ _ HI k l) as Hfi.
    rewrite <- (pops_filter ev k l) in Hfi by (intros; by apply (k2_move _ _ HI2)).
    rewrite H1, bfilter_app in Hfi. simpl in Hfi.
    assert (Hbr : between k l r = true).
    { unfold KernelSpec.sents in Hrb. by apply In_filter in Hrb as [_ Hrb]. }
    rewrite Hbr, <- app_assoc in Hfi. simpl in Hfi.
    rewrite Hse in Hfi, Hnd.
    replace (a ++ m1 :: b ++ r :: c ++ m2 :: d) with ((a ++ m1 :: b) ++ r :: c ++ m2 :: d) in Hfi, Hnd
      by (by rewrite <- app_assoc).
    destruct (nodup_split_eq _ _ _ _ _ _ eq_refl Hnd Hfi) as (Hp & _ & _).
    split.
    - assert (In m1 (lf (between k l) p1)) as Hm by (rewrite <- Hp; apply in_or_app; right; by left).
      by apply In_filter in Hm as [? _].
    - intros Hm. assert (Hb2 : between k l m2 = true).
      { assert (In m2 (sents k l ev)) as Hx.
        { rewrite Hse. apply in_or_app. right. right. apply in_or_app. right. right. apply in_or_app. right. by left. }
        unfold KernelSpec.sents in Hx. by apply In_filter in Hx as [_ Hx]. }
      assert (In m2 (lf (between k l) p1)) as Hx by (by apply In_filter).
      rewrite <- Hp in Hx. rewrite fmap_app in Hnd. apply NoDup_app in Hnd as (_ & Hd & _).
      apply (Hd (m_uid m2)).
      + apply elem_of_list_fmap. exists m2. split; [done|]. by apply elem_of_list_In.
      + csimpl. right. rewrite fmap_app. csimpl. apply elem_of_app. right. by left.
  Qed.

  (** ** Ends and second hops *)
  Definition end_at (l : N) (e : kevent) : option msg :=
    match e with EEnd l' m _ => if N.eqb l' l then Some m else None | _ => None end.
  Definition cur_list (c : option cur) : list msg := match c with Some c => [c_msg c] | None => [] end.

  Definition is_hop (m : msg) : bool :=
    match m_src m, m_root m with SLoc _, Some _ => true | _, _ => false end.
  Definition routed_end (e : kevent) : option (N * msg) :=
    match e with EEnd l m true => Some (l, m) | _ => None end.
  Definition hop_of (p : N * msg) (m' : msg) : Prop :=
    m_root m' = Some (m_uid p.2) /\ m_src m' = SLoc p.1 /\
    m_next p.2 = Some (m_addr m') /\ m_next m' = None /\ m_type m' = m_type p.2.

  Record kinv3 (w : world) (ev : list kevent) : Prop := KInv3 {
    k3_ends : forall l, omap (disp_at l) ev = omap (end_at l) ev ++ cur_list (w_cur w l);
    k3_hops : Forall2 hop_of (omap routed_end ev) (lf is_hop (omap sent_of ev))
  }.

  Lemma fc_silent l m hs : forall w w' e, forward_calls aloc hsup w l m hs = (w', e) ->
    (forall d, omap (disp_at d) e = []) /\ (forall d, omap (end_at d) e = []) /\ omap routed_end e = [] /\
    lf is_hop (omap sent_of e) = [].
  Proof.
    induction hs as [|h hs IH]; intros w w' e Hf; simpl in Hf; [by inversion Hf; subst|].
    destruct (forward_calls aloc hsup (enqueue _ (new_uid w) _) l m hs) as [w1 e1] eqn:E1.
    inversion Hf; subst. apply IH in E1 as (H1&H2&H3&H4). csimpl. done.
  Qed.

  Lemma kinv3_silent w ev w' e :
    kinv3 w ev -> w_cur w' = w_cur w -> (forall d, omap (disp_at d) e = []) -> (forall d, omap (end_at d) e = []) ->
    omap routed_end e = [] -> lf is_hop (omap sent_of e) = [] -> kinv3 w' (ev ++ e).
  Proof.
    intros [H1 H2] Hc E1 E2 E3 E4. split.
    - intros l. rewrite !omap_app, E1, E2, Hc, !app_nil_r. apply H1.
    - rewrite !omap_app, bfilter_app, E3, E4, !app_nil_r. done.
  Qed.

  Lemma cur_list_upd_same w l m rp rd rp' rd' l' :
    w_cur w l = Some (Cur m rp rd) ->
    cur_list (upd (w_cur w) l (Some (Cur m rp' rd')) l') = cur_list (w_cur w l').
  Proof.
    intros H. destruct (decide (l' = l)) as [->|Hne]; [by rewrite upd_same, H|by rewrite upd_other].
  Qed.

  Lemma kinv3_step w ev o w' e : kinv3 w ev -> kstep w o = Ok (w', e) -> kinv3 w' (ev ++ e).
  Proof.
    intros HI Hs. destruct o as [l a nx ty rep|n a ty|l|l|l origin|l a nx|l kept|l so]; simpl in Hs.
    - inv_ok Hs. by eapply kinv3_silent.
    - inv_ok Hs. by eapply kinv3_silent.
    - destruct (w_inb w l) as [|m r] eqn:Ei; inv_ok Hs; by eapply kinv3_silent.
    - unfold dispatch in Hs. destruct (w_cur w l) as [c|] eqn:Ec; [inv_ok Hs; by rewrite app_nil_r|].
      destruct (w_queue w l) as [|m q] eqn:Eq; [inv_ok Hs; by rewrite app_nil_r|].
      destruct (addr_in _ _ _).
      + set (j := joint_at (w_subs w l) (m_addr m, m_type m)) in *.
        destruct (forward_calls aloc hsup (set_queue w l q) l m (j_external j)) as [w2 e2] eqn:Ef.
        inversion Hs; subst w' e; clear Hs.
        pose proof (fc_queue _ _ _ _ _ _ Ef) as (_ & _ & Hcur).
        pose proof (fc_silent _ _ _ _ _ _ Ef) as (F1 & F2 & F3 & F4).
        destruct HI as [H1 H2]. split.
        * intros l'. rewrite !omap_app. csimpl. rewrite H1, F1, F2. simpl.
          destruct (N.eqb_spec l l') as [<-|Hne]; simpl.
          -- rewrite upd_same, Ec. simpl. by rewrite !app_nil_r.
          -- rewrite upd_other by congruence. rewrite Hcur. simpl. by rewrite !app_nil_r.
        * rewrite !omap_app, bfilter_app. csimpl. rewrite F3, F4, !app_nil_r. done.
      + inv_ok Hs. by eapply kinv3_silent.
    - unfold forward in Hs. destruct (w_cur w l) as [[m [|] rd]|] eqn:Ec;
        try (inv_ok Hs; by rewrite app_nil_r).
      destruct (m_reply m) eqn:Er; [|inv_ok Hs; by rewrite app_nil_r].
      simpl in Hs. rewrite upd_same, uplift_snoc in Hs. inv_ok Hs.
      destruct HI as [H1 H2]. split.
      + intros l'. rewrite !omap_app. csimpl. rewrite H1, !app_nil_r.
        by erewrite cur_list_upd_same by eauto.
      + rewrite !omap_app, bfilter_app. csimpl. by rewrite !app_nil_r.
    - destruct (w_cur w l) as [[m rp rd]|] eqn:Ec; [|inv_ok Hs; by rewrite app_nil_r].
      inv_ok Hs. destruct HI as [H1 H2]. split.
      + intros l'. rewrite !omap_app. csimpl. rewrite H1, !app_nil_r.
        by erewrite cur_list_upd_same by eauto.
      + rewrite !omap_app, bfilter_app. csimpl. by rewrite !app_nil_r.
    - unfold end_dispatch in Hs. destruct (w_cur w l) as [[m rp rd]|] eqn:Ec; [|inv_ok Hs; by rewrite app_nil_r].
      destruct HI as [H1 H2].
      assert (HE : forall l', omap (disp_at l') ev = (omap (end_at l') ev ++ (if N.eqb l l' then [m] else []))
                     ++ cur_list (upd (w_cur w) l None l')).
      { intros l'. rewrite H1. destruct (N.eqb_spec l l') as [<-|Hne].
        - rewrite upd_same, Ec. simpl. by rewrite app_nil_r.
        - rewrite upd_other by congruence. by rewrite app_nil_r. }
      assert (HF : kinv3 (set_cur w l None) (ev ++ [EEnd l m false])).
      { split.
        - intros l'. rewrite !omap_app. csimpl. rewrite HE. destruct (N.eqb l l'); by rewrite !app_nil_r.
        - rewrite !omap_app, bfilter_app. csimpl. by rewrite !app_nil_r. }
      destruct (m_next m) as [nx|] eqn:En; [|inv_ok Hs; apply HF].
      destruct (kept || rd); [inv_ok Hs; apply HF|].
      inv_ok Hs. split.
      + intros l'. rewrite !omap_app. csimpl. rewrite HE. destruct (N.eqb l l'); by rewrite !app_nil_r.
      + rewrite !omap_app, bfilter_app. csimpl. apply Forall2_app; [done|]. constructor; [|constructor].
        unfold hop_of. simpl. done.
    - destruct (sstep _ _ (w_subs w l) so) as [[s' e']| |]; simpl in Hs; try done.
      inv_ok Hs. by eapply kinv3_silent.
  Qed.

  Lemma run_kinv3 ops : forall w ev w' e, kinv3 w ev -> run kstep w ops = Ok (w', e) -> kinv3 w' (ev ++ e).
  Proof.
    induction ops as [|o ops IH]; intros w ev w' e HI Hr; simpl in Hr.
    - inversion Hr; subst. by rewrite app_nil_r.
    - destruct (kstep w o) as [[w1 e1]| |] eqn:E1; simpl in Hr; try done.
      destruct (run kstep w1 ops) as [[w2 e2]| |] eqn:E2; simpl in Hr; try done.
      inversion Hr; subst. rewrite app_assoc. eapply IH; [|done]. by eapply kinv3_step.
  Qed.

  Lemma reach_kinv3 ops w ev : run kstep kinit ops = Ok (w, ev) -> kinv3 w ev.
  Proof.
    intros H. apply (run_kinv3 ops kinit [] w ev); [|done]. split; simpl; [done|constructor].
  Qed.

  (** Every second hop comes from exactly one finished dispatch of its original,
      in the same order. *)
  Lemma hops_match ops w ev : run kstep kinit ops = Ok (w, ev) ->
    Forall2 hop_of (omap routed_end ev) (lf is_hop (omap sent_of ev)).
  Proof. intros Hr. apply (k3_hops _ _ (reach_kinv3 _ _ _ Hr)). Qed.

  Lemma end_dispatched w ev l m b : kinv3 w ev -> In (EEnd l m b) ev ->
    exists ext int, In (EDisp l m ext int) ev.
  Proof.
    intros [H1 _] He.
    assert (In m (omap (disp_at l) ev)) as Hm.
    { rewrite H1. apply in_or_app. left. rewrite <- elem_of_list_In, elem_of_list_omap.
      exists (EEnd l m b). split; [by apply elem_of_list_In|]. simpl. by rewrite N.eqb_refl. }
    rewrite <- elem_of_list_In, elem_of_list_omap in Hm. destruct Hm as (e & Hin & Hd).
    destruct e as [| |l' m' ext int|]; try done. simpl in Hd. destruct (N.eqb_spec l' l); [|done].
    inversion Hd; subst. exists ext, int. by apply elem_of_list_In.
  Qed.

  Lemma routed_nodup ops w ev : run kstep kinit ops = Ok (w, ev) ->
    NoDup ((fun p => m_uid p.2) <$> omap routed_end ev).
  Proof.
    intros Hr. pose proof (disp_once _ _ _ Hr) as Hnd.
    pose proof (reach_kinv3 _ _ _ Hr) as HI. pose proof (reach_kinv2 _ _ _ Hr) as HI2.
    pose proof (reach_kinv _ _ _ Hr) as HI1.
    (* per locality the ends are a prefix of the dispatches *)
    assert (Hl : forall l, NoDup (m_uid <$> omap (end_at l) ev)).
    { intros l. assert (NoDup (m_uid <$> omap (disp_at l) ev)) as Hd.
      { clear -Hnd. induction ev as [|e ev IH]; csimpl in *; [constructor|].
        destruct e as [|l' m'|l' m' ext int|]; simpl in *; auto.
        apply NoDup_cons in Hnd as [H1 H2]. destruct (N.eqb l' l); csimpl; [|auto]. constructor; [|auto].
        intros Hx. apply H1. apply elem_of_list_fmap in Hx as (y & -> & Hy). apply elem_of_list_fmap. exists y.
        split; [done|]. apply elem_of_list_omap in Hy as (e & He & Hy). apply elem_of_list_omap. exists e.
        split; [done|]. destruct e; try done. simpl in *. by destruct (N.eqb _ _). }
      rewrite (k3_ends _ _ HI l), fmap_app in Hd. by apply NoDup_app in Hd as [Hd _]. }
    assert (Hloc : forall l m b, In (EEnd l m b) ev -> aloc (m_addr m) = l /\ In (ESent m) ev).
    { intros l m b He. destruct (end_dispatched _ _ _ _ _ HI He) as (ext & int & Hd).
      apply (k2_disp _ _ HI2) in Hd. tauto. }
    pose proof (k_nodup _ _ HI1) as Huid.
    assert (forall ev', (forall e, In e ev' -> In e ev) -> (forall l, NoDup (m_uid <$> omap (end_at l) ev')) ->
      NoDup ((fun p => m_uid p.2) <$> omap routed_end ev')) as Hgen; [|by apply Hgen].
    clear Hl. induction ev' as [|e ev' IH]; csimpl; intros Hsub Hl; [constructor|].
    assert (IH' : NoDup ((fun p => m_uid p.2) <$> omap routed_end ev')).
    { apply IH; [intros; apply Hsub; by right|]. intros l. specialize (Hl l).
      destruct (end_at l e); csimpl in Hl; [|done]. by apply NoDup_cons in Hl as [_ Hl]. }
    destruct e as [| | |l m [|]]; simpl; auto. csimpl. constructor; [|done].
    intros Hx. apply elem_of_list_fmap in Hx as ([l2 m2] & Hu & Hin). simpl in Hu.
    apply elem_of_list_omap in Hin as (e2 & Hin & He2). destruct e2 as [| | |l3 m3 [|]]; try done.
    simpl in He2. inversion He2; subst l3 m3.
    destruct (Hloc l m true) as [La Ls]; [apply Hsub; by left|].
    destruct (Hloc l2 m2 true) as [La2 Ls2]; [apply Hsub; right; by apply elem_of_list_In|].
    assert (m = m2) as <- by (eapply (uid_inj (omap sent_of ev)); [done|by apply sent_in|by apply sent_in|done]).
    assert (l = l2) as <- by congruence.
    specialize (Hl l). simpl in Hl. rewrite N.eqb_refl in Hl. csimpl in Hl.
    apply NoDup_cons in Hl as [Hl _]. apply Hl. apply elem_of_list_fmap. exists m. split; [done|].
    apply elem_of_list_omap. exists (EEnd l m true). split; [done|]. simpl. by rewrite N.eqb_refl.
  Qed.

  Lemma hop_at_most_once ops w ev u : run kstep kinit ops = Ok (w, ev) -> length (hops u ev) <= 1.
  Proof.
    intros Hr. pose proof (hops_match _ _ _ Hr) as Hm. pose proof (routed_nodup _ _ _ Hr) as Hnd.
    assert (hops u ev = lf (fun m => bool_decide (m_root m = Some u)) (lf is_hop (omap sent_of ev))) as ->.
    { unfold hops. generalize (omap sent_of ev) as L. induction L as [|m L IH]; csimpl; [done|].
      unfold is_hop at 1. destruct (m_src m), (m_root m) eqn:Er; simpl; rewrite ?andb_true_r, ?andb_false_r, ?IH, ?Er; try done. }
    revert Hm Hnd. generalize (omap routed_end ev) as P, (lf is_hop (omap sent_of ev)) as L.
    clear. intros P L Hm. induction Hm as [|[l m] m' P L H Hm IH]; csimpl; intros Hnd; [lia|].
    apply NoDup_cons in Hnd as [H1 H2]. destruct (bool_decide (m_root m' = Some u)) eqn:Eb; [|auto].
    apply bool_decide_eq_true in Eb. destruct H as (Hr & _). simpl in Hr. rewrite Eb in Hr. inversion Hr; subst.
    simpl. assert (lf (fun m0 => bool_decide (m_root m0 = Some (m_uid m))) L = []) as ->; [|simpl; lia].
    destruct (lf _ L) as [|x xs] eqn:E; [done|]. exfalso.
    assert (In x (lf (fun m0 => bool_decide (m_root m0 = Some (m_uid m))) L)) as Hx by (rewrite E; by left).
    apply In_filter in Hx as [Hx Hb]. apply bool_decide_eq_true in Hb.
    apply H1. apply elem_of_list_In, elem_of_list_lookup in Hx as (i & Hx).
    destruct (Forall2_lookup_r _ _ _ _ _ Hm Hx) as ([l2 m2] & Hp & Hh). apply elem_of_list_lookup_2 in Hp.
    destruct Hh as (Hh & _). simpl in Hh. rewrite Hb in Hh. inversion Hh as [Hu].
    apply elem_of_list_fmap. exists (l2, m2). done.
  Qed.

  (** A second hop directly follows the end of the dispatch of its original. *)
  Definition hops_after (ev : list kevent) : Prop :=
    forall e1 m' e2, ev = e1 ++ ESent m' :: e2 -> is_hop m' = true ->
    exists e0 l m, e1 = e0 ++ [EEnd l m true] /\ hop_of (l, m) m' /\
      exists ext int, In (EDisp l m ext int) e0.

  Lemma app_mid {A} (a b c d : list A) x : a ++ b = c ++ x :: d ->
    (exists d', a = c ++ x :: d') \/ (exists c', c = a ++ c' /\ b = c' ++ x :: d).
  Proof.
    revert c. induction a as [|y a IH]; intros c H; simpl in H; [right; by exists c|].
    destruct c as [|z c]; simpl in H; inversion H; subst; [left; by exists a|].
    apply IH in H2 as [(d' & ->)|(c' & -> & ->)]; [left; by exists d'|right; by exists c'].
  Qed.

  Lemma hops_after_app ev e : hops_after ev -> lf is_hop (omap sent_of e) = [] -> hops_after (ev ++ e).
  Proof.
    intros H He e1 m' e2 Heq Hh. apply app_mid in Heq as [(d' & ->)|(c' & -> & ->)].
    - by eapply H.
    - exfalso. rewrite omap_app, bfilter_app in He. csimpl in He. rewrite Hh in He.
      by apply app_eq_nil in He as [_ He].
  Qed.

  Lemma hops_after_step w ev o w' e : kinv3 w ev -> hops_after ev -> kstep w o = Ok (w', e) -> hops_after (ev ++ e).
  Proof.
    intros HI HA Hs. destruct o as [l a nx ty rep|n a ty|l|l|l origin|l a nx|l kept|l so]; simpl in Hs.
    - inv_ok Hs. by apply hops_after_app.
    - inv_ok Hs. by apply hops_after_app.
    - destruct (w_inb w l) as [|m r] eqn:Ei; inv_ok Hs; by apply hops_after_app.
    - unfold dispatch in Hs. destruct (w_cur w l) as [c|] eqn:Ec; [inv_ok Hs; by apply hops_after_app|].
      destruct (w_queue w l) as [|m q] eqn:Eq; [inv_ok Hs; by apply hops_after_app|].
      destruct (addr_in _ _ _).
      + set (j := joint_at (w_subs w l) (m_addr m, m_type m)) in *.
        destruct (forward_calls aloc hsup (set_queue w l q) l m (j_external j)) as [w2 e2] eqn:Ef.
        inversion Hs; subst w' e; clear Hs. apply hops_after_app; [done|]. csimpl.
        by pose proof (fc_silent _ _ _ _ _ _ Ef) as (_ & _ & _ & ->).
      + inv_ok Hs. by apply hops_after_app.
    - unfold forward in Hs. destruct (w_cur w l) as [[m [|] rd]|] eqn:Ec; try (inv_ok Hs; by apply hops_after_app).
      destruct (m_reply m) eqn:Er; [|inv_ok Hs; by apply hops_after_app].
      simpl in Hs. rewrite upd_same, uplift_snoc in Hs. inv_ok Hs. by apply hops_after_app.
    - destruct (w_cur w l) as [[m rp rd]|] eqn:Ec; inv_ok Hs; by apply hops_after_app.
    - unfold end_dispatch in Hs. destruct (w_cur w l) as [[m rp rd]|] eqn:Ec; [|inv_ok Hs; by apply hops_after_app].
      destruct (m_next m) as [nx|] eqn:En; [|inv_ok Hs; by apply hops_after_app].
      destruct (kept || rd); [inv_ok Hs; by apply hops_after_app|].
      inv_ok Hs. intros e1 m' e2 Heq Hh.
      apply app_mid in Heq as [(d' & ->)|(c' & -> & Heq)]; [by eapply HA|].
      destruct c' as [|x c']; simpl in Heq; inversion Heq; subst x. destruct c' as [|y c']; simpl in *.
      + inversion H1; subst. exists ev, l, m. split; [done|]. split; [done|].
        assert (In m (omap (disp_at l) ev)) as Hm.
        { rewrite (k3_ends _ _ HI l), Ec. apply in_or_app. right. by left. }
        rewrite <- elem_of_list_In, elem_of_list_omap in Hm. destruct Hm as (e & Hin & Hd).
        destruct e as [| |l' m' ext int|]; try done. simpl in Hd. destruct (N.eqb_spec l' l); [|done].
        inversion Hd; subst. exists ext, int. by apply elem_of_list_In.
      + inversion H1. by destruct c'.
    - destruct (sstep _ _ (w_subs w l) so) as [[s' e']| |]; simpl in Hs; try done.
      inv_ok Hs. by apply hops_after_app.
  Qed.

  Lemma reach_hops_after ops w ev : run kstep kinit ops = Ok (w, ev) -> hops_after ev.
  Proof.
    assert (forall ops w0 ev0 w ev, kinv3 w0 ev0 -> hops_after ev0 -> run kstep w0 ops = Ok (w, ev) ->
      hops_after (ev0 ++ ev)) as Hg.
    { clear. induction ops as [|o ops IH]; intros w0 ev0 w ev HI HA Hr; simpl in Hr.
      - inversion Hr; subst. by rewrite app_nil_r.
      - destruct (kstep w0 o) as [[w1 e1]| |] eqn:E1; simpl in Hr; try done.
        destruct (run kstep w1 ops) as [[w2 e2]| |] eqn:E2; simpl in Hr; try done.
        inversion Hr; subst. rewrite app_assoc. eapply IH; [by eapply kinv3_step|by eapply hops_after_step|done]. }
    intros Hr. apply (Hg ops kinit []) in Hr; [done|split; simpl; [done|constructor]|].
    intros e1 m' e2 H. by destruct e1.
  Qed.

  (** When a dispatch ends with routing. *)
  Lemma routed_iff w l kept w' e m rp rd :
    w_cur w l = Some (Cur m rp rd) -> kstep w (OEnd l kept) = Ok (w', e) ->
    (is_Some (m_next m) /\ kept = false /\ rd = false /\
      exists m', e = [EEnd l m true; ESent m'] /\ hop_of (l, m) m' /\ w_queue w' l = w_queue w l ++ [m']) \/
    ((m_next m = None \/ kept = true \/ rd = true) /\ e = [EEnd l m false] /\ w_queue w' l = w_queue w l).
  Proof.
    intros Hc Hs. simpl in Hs. unfold end_dispatch in Hs. rewrite Hc in Hs.
    destruct (m_next m) as [nx|] eqn:En; [|inv_ok Hs; right; auto].
    destruct kept; [inv_ok Hs; right; auto|]. destruct rd; [inv_ok Hs; right; auto|].
    simpl in Hs. inv_ok Hs. left. split; [by eexists|]. split; [done|]. split; [done|].
    eexists. split; [done|]. split; [by unfold hop_of|]. simpl. by rewrite upd_same.
  Qed.

  (** ** The subscription map of a locality inside the whole system *)
  Definition sub_op (l : N) (o : kop) : option sop :=
    match o with OSub l' so => if N.eqb l' l then Some so else None | _ => None end.

  Lemma subs_unchanged w o w' e l : kstep w o = Ok (w', e) -> sub_op l o = None -> w_subs w' l = w_subs w l.
  Proof.
    intros Hs Hn. destruct o as [l1 a nx ty rep|n a ty|l1|l1|l1 origin|l1 a nx|l1 kept|l1 so]; simpl in Hs, Hn.
    - by inv_ok Hs.
    - by inv_ok Hs.
    - destruct (w_inb w l1); by inv_ok Hs.
    - unfold dispatch in Hs. destruct (w_cur w l1); [by inv_ok Hs|]. destruct (w_queue w l1) as [|m q]; [by inv_ok Hs|].
      destruct (addr_in _ _ _); [|by inv_ok Hs].
      set (j := joint_at (w_subs w l1) (m_addr m, m_type m)) in *.
      destruct (forward_calls aloc hsup (set_queue w l1 q) l1 m (j_external j)) as [w2 e2] eqn:Ef.
      inversion Hs; subst; simpl. clear -Ef.
      assert (forall hs w w2 e2, forward_calls aloc hsup w l1 m hs = (w2, e2) -> w_subs w2 = w_subs w) as HF.
      { induction hs as [|h hs IH]; intros w0 w3 e3 H; simpl in H; [by inversion H|].
        destruct (forward_calls aloc hsup (enqueue _ (new_uid w0) _) l1 m hs) as [w4 e4] eqn:E4.
        inversion H; subst. by apply IH in E4 as ->. }
      by apply HF in Ef as ->.
    - unfold forward in Hs. destruct (w_cur w l1) as [[m [|] rd]|]; try by inv_ok Hs.
      destruct (m_reply m); [|by inv_ok Hs]. simpl in Hs. rewrite upd_same, uplift_snoc in Hs. by inv_ok Hs.
    - destruct (w_cur w l1) as [[m rp rd]|]; by inv_ok Hs.
    - unfold end_dispatch in Hs. destruct (w_cur w l1) as [[m rp rd]|]; [|by inv_ok Hs].
      destruct (m_next m); [|by inv_ok Hs]. destruct (kept || rd); by inv_ok Hs.
    - destruct (sstep _ _ (w_subs w l1) so) as [[s' e']| |]; simpl in Hs; try done.
      inv_ok Hs. simpl. destruct (N.eqb_spec l1 l); [done|]. by rewrite upd_other by congruence.
  Qed.

  Lemma subs_reach l ops : forall w w' ev, run kstep w ops = Ok (w', ev) ->
    exists tr, run (sstep (addr_in aloc l) (actor_in aloc hsup l)) (w_subs w l) (omap (sub_op l) ops) =
      Ok (w_subs w' l, tr).
  Proof.
    induction ops as [|o ops IH]; intros w w' ev Hr; simpl in Hr; [inversion Hr; subst; by eexists|].
    destruct (kstep w o) as [[w1 e1]| |] eqn:E1; simpl in Hr; try done.
    destruct (run kstep w1 ops) as [[w2 e2]| |] eqn:E2; simpl in Hr; try done.
    inversion Hr; subst. apply IH in E2 as (tr & Htr). csimpl.
    destruct (sub_op l o) as [so|] eqn:Eo.
    - destruct o as [| | | | | | |l1 so']; try done. simpl in Eo, E1.
      destruct (N.eqb_spec l1 l) as [->|]; [|done]. inversion Eo; subst so'.
      simpl. destruct (sstep _ _ (w_subs w l) so) as [[s' e']| |] eqn:Es; simpl in E1; try done.
      inv_ok E1. simpl in Htr |- *. rewrite upd_same in Htr. rewrite Htr. simpl. by eexists.
    - rewrite (subs_unchanged _ _ _ _ _ E1 Eo) in Htr. by exists tr.
  Qed.

  Definition call_for (l : N) (m : msg) (h : handler) (e : kevent) : Prop :=
    exists c, e = ESent c /\ m_src c = SCall l /\ m_addr c = hsup (h_actor h) /\
      m_handler c = Some h /\ m_root c = Some (m_uid m) /\ m_next c = None.

  Lemma fc_calls l m hs : forall w w' e, forward_calls aloc hsup w l m hs = (w', e) ->
    Forall2 (call_for l m) hs e.
  Proof.
    induction hs as [|h hs IH]; intros w w' e Hf; simpl in Hf; [inversion Hf; constructor|].
    destruct (forward_calls aloc hsup (enqueue _ (new_uid w) _) l m hs) as [w1 e1] eqn:E1.
    inversion Hf; subst. constructor; [|by eapply IH]. by eexists.
  Qed.

  (** A dispatch serves the live subscriptions of the locality: one call message
      per foreign handler, then the own handlers, and nobody else. *)
  Lemma dispatch_exact ops w ev l w' m ext int e :
    run kstep kinit ops = Ok (w, ev) ->
    kstep w (ODispatch l) = Ok (w', EDisp l m ext int :: e) ->
    exists tr, run (sstep (addr_in aloc l) (actor_in aloc hsup l)) subs_init (omap (sub_op l) ops) = Ok (w_subs w l, tr) /\
      let live := live (addr_in aloc l) tr in
      view <$> ext = sview <$> List.filter (matching (actor_in aloc hsup l) (m_addr m) (m_type m) false) live /\
      view <$> int = sview <$> List.filter (matching (actor_in aloc hsup l) (m_addr m) (m_type m) true) live /\
      Forall2 (call_for l m) ext e.
  Proof.
    intros Hr Hs. pose proof (subs_reach l _ _ _ _ Hr) as (tr & Htr).
    exists tr. split; [done|]. simpl in Hs. unfold dispatch in Hs.
    destruct (w_cur w l); [done|]. destruct (w_queue w l) as [|m0 q]; [done|].
    destruct (addr_in _ _ _); [|done].
    set (j := joint_at (w_subs w l) (m_addr m0, m_type m0)) in *.
    destruct (forward_calls aloc hsup (set_queue w l q) l m0 (j_external j)) as [w2 e2] eqn:Ef.
    inversion Hs; subst. unfold j. pose proof (reach_inv _ _ _ _ _ Htr) as HI.
    split; [|split; [|by eapply fc_calls]].
    - by apply (groups_inv _ _ _ _ (m_addr m) (m_type m)) in HI as [-> _].
    - by apply (groups_inv _ _ _ _ (m_addr m) (m_type m)) in HI as [_ ->].
  Qed.
End P.
