(** Proofs about the reply-address mapping (address_mapping_t and its use in
    request_builder_t), on the model of RequestsModel.v. *)
From stdpp Require Import base list gmap.
From Verif Require Import Base RequestsModel RequestsSpec.

(** Discipline: a builder is sent before the next one is made. *)
Definition seq_ok (st : rstate) (o : rop) : Prop :=
  match o with OBuild _ _ _ => r_built st = ∅ | _ => True end.

(** Address [imag] is used as reply channel of ([a], [ty]). *)
Definition refs (st : rstate) (imag a ty : N) : Prop :=
  r_amap st !! (a, ty) = Some imag \/
  (exists id b, r_built st !! id = Some b /\ b_imag b = imag /\ b_actor b = a /\ b_type b = ty) \/
  (exists u rm, r_sent st !! u = Some rm /\ rm_imag rm = imag /\ rm_source rm = a /\ rm_type rm = ty).

Section P.
  Variable asup : N -> N.
  Variable leader : N.
  Notation rstep := (rstep asup leader).

  Record frame (st st' : rstate) : Prop := Frame {
    f_amap : r_amap st' = r_amap st; f_built : r_built st' = r_built st; f_sent : r_sent st' = r_sent st;
    f_subs : r_subs st' = r_subs st; f_naddr : r_naddr st' = r_naddr st; f_uid : r_uid st' = r_uid st
  }.
  Lemma frame_refl st : frame st st.
  Proof. by split. Qed.

  Lemma fr_trigger st o id b st' e : on_timer_trigger st o id b = Ok (st', e) -> frame st st'.
  Proof.
    unfold on_timer_trigger. destruct (r_timers st !! (o, id)) as [[|]|]; simpl.
    - intros H; by inversion H.
    - unfold on_request_trigger. destruct (r_map st !! (o, id)); simpl; [destruct (decide _); simpl|]; intros H; by inversion H.
    - intros H; by inversion H.
  Qed.
  Lemma fr_do_cancel st id st' e : do_cancel_timer st id = Ok (st', e) -> frame st st'.
  Proof.
    unfold do_cancel_timer. destruct (find_armed _ _); [|done].
    destruct (on_timer_trigger st n id true) as [[s1 e1]| |] eqn:E; simpl; intros H; inversion H; subst.
    apply fr_trigger in E. by destruct E.
  Qed.
  Lemma fr_cancel st a id st' e : cancel_timer st a id = Ok (st', e) -> frame st st'.
  Proof. unfold cancel_timer. destruct (r_timers st !! (a, id)); [|done]. apply fr_do_cancel. Qed.

  Definition touches (o : rop) : bool :=
    match o with OBuild _ _ _ | OSendReq _ | OUnmap _ _ => true | _ => false end.

  Lemma fr_step st o st' e : rstep st o = Ok (st', e) -> touches o = false -> frame st st'.
  Proof.
    intros Hs Ht. destruct o as [x origin ty|id|u|id o|x|x id|x id|x ty]; simpl in Hs; try done.
    - unfold arrive in Hs. destruct (r_sent st !! u) as [rm|]; [|inversion Hs; subst; apply frame_refl].
      destruct (decide _); [|inversion Hs; subst; apply frame_refl].
      destruct (r_map st !! _); [|inversion Hs; subst; apply frame_refl].
      unfold discard_request in Hs. destruct (r_map st !! _); [|done].
      destruct (cancel_timer st _ _) as [[s1 e1]| |] eqn:E; simpl in Hs; inversion Hs; subst.
      apply fr_cancel in E. by destruct E.
    - unfold fire in Hs. destruct (decide _); [|inversion Hs; subst; apply frame_refl].
      destruct (on_timer_trigger _ _ _ _) as [[s1 e1]| |] eqn:E; simpl in Hs; inversion Hs; subst.
      apply fr_trigger in E. by destruct E.
    - destruct (next_id _ _); [|done]. unfold start_timer in Hs. simpl in Hs. destruct (_ !! _); [done|].
      simpl in Hs. by inversion Hs; subst.
    - by apply fr_cancel in Hs.
    - unfold finish in Hs. destruct (has_timers st x).
      { destruct (r_timers st !! (x, id)); [|inversion Hs; subst; apply frame_refl]. by apply fr_cancel in Hs. }
      destruct (has_active st x).
      { destruct (decide _); [|inversion Hs; subst; apply frame_refl]. by apply fr_do_cancel in Hs. }
      destruct (has_requests st x); [done|]. by inversion Hs; subst.
  Qed.

  (** What building and sending do to these fields. *)
  Lemma build_fields st a origin ty st' e : rstep st (OBuild a origin ty) = Ok (st', e) ->
    exists id b, r_built st' = <[id := b]> (r_built st) /\ b_actor b = a /\ b_type b = ty /\
      r_sent st' = r_sent st /\ r_amap st' = r_amap st /\ r_subs st' = r_subs st /\ r_uid st' = r_uid st /\
      ((r_amap st !! (a, ty) = Some (b_imag b) /\ b_install b = false /\ r_naddr st' = r_naddr st) \/
       (r_amap st !! (a, ty) = None /\ b_install b = true /\ b_imag b = r_naddr st /\ r_naddr st' = N.succ (r_naddr st))).
  Proof.
    simpl. unfold build. destruct (next_id _ _) as [id|]; [|done].
    destruct (r_amap st !! (a, ty)) as [imag|] eqn:Em; intros H; inversion H; subst; simpl.
    - exists id, (Builder a origin ty imag false). simpl. repeat (split; [done|]). by left.
    - exists id, (Builder a origin ty (r_naddr st) true). simpl. repeat (split; [done|]). by right.
  Qed.

  Lemma send_fields st id st' e : rstep st (OSendReq id) = Ok (st', e) ->
    (r_built st !! id = None /\ st' = st) \/
    exists b, r_built st !! id = Some b /\ r_built st' = delete id (r_built st) /\
      r_sent st' = <[r_uid st := RMsg id (asup (b_actor b)) (b_imag b) (b_origin b) (b_actor b) (b_type b)]> (r_sent st) /\
      r_naddr st' = r_naddr st /\ r_uid st' = N.succ (r_uid st) /\
      (if b_install b then
         r_subs st' = {[b_imag b]} ∪ r_subs st /\
         r_amap st' = match r_amap st !! (b_actor b, b_type b) with
                      | Some _ => r_amap st | None => <[(b_actor b, b_type b) := b_imag b]> (r_amap st) end
       else r_subs st' = r_subs st /\ r_amap st' = r_amap st).
  Proof.
    simpl. unfold send. destruct (r_built st !! id) as [b|] eqn:Eb; intros H; [right|left; by inversion H].
    exists b. split; [done|]. unfold start_timer in H. simpl in H.
    destruct (_ !! (asup (b_actor b), id)) in H; [done|]. simpl in H. inversion H; subst; clear H. simpl.
    destruct (b_install b); simpl; auto 10.
  Qed.

  Lemma unmap_fields st a ty st' e : rstep st (OUnmap a ty) = Ok (st', e) ->
    (r_amap st !! (a, ty) = None /\ st' = st) \/
    exists imag, r_amap st !! (a, ty) = Some imag /\ r_amap st' = delete (a, ty) (r_amap st) /\
      r_subs st' = r_subs st ∖ {[imag]} /\ r_built st' = r_built st /\ r_sent st' = r_sent st /\
      r_naddr st' = r_naddr st /\ r_uid st' = r_uid st.
  Proof.
    simpl. unfold unmap. destruct (r_amap st !! (a, ty)) as [imag|] eqn:Em; intros H; inversion H; subst; [right|by left].
    exists imag. simpl. auto 10.
  Qed.

  (** ** Different actors or types never share an address *)
  Record minv (st : rstate) : Prop := MInv {
    m_lt : forall imag a ty, refs st imag a ty -> (imag < r_naddr st)%N;
    m_fun : forall imag a ty a' ty', refs st imag a ty -> refs st imag a' ty' -> a = a' /\ ty = ty';
    m_subs : forall a ty imag, r_amap st !! (a, ty) = Some imag -> imag ∈ r_subs st;
    m_uid : forall u rm, r_sent st !! u = Some rm -> (u < r_uid st)%N
  }.

  Lemma minv_init : minv rinit.
  Proof.
    assert (H : forall imag a ty, ~ refs rinit imag a ty).
    { intros imag a ty [H|[(id & b & H & _)|(u & rm & H & _)]]; cbn in H; by rewrite lookup_empty in H. }
    split.
    - intros imag a ty Hr. by apply H in Hr.
    - intros imag a ty a' ty' Hr. by apply H in Hr.
    - intros a ty imag Hr. cbn in Hr; by rewrite lookup_empty in Hr.
    - intros u rm Hr. cbn in Hr; by rewrite lookup_empty in Hr.
  Qed.

  Lemma minv_weaken st st' : minv st -> (forall imag a ty, refs st' imag a ty -> refs st imag a ty) ->
    (r_naddr st <= r_naddr st')%N ->
    (forall a ty imag, r_amap st' !! (a, ty) = Some imag -> imag ∈ r_subs st') ->
    (forall u rm, r_sent st' !! u = Some rm -> (u < r_uid st')%N) -> minv st'.
  Proof.
    intros [H1 H2 H3 H4] Hr Hn Hs Hu. split; try done.
    - intros imag a ty H. apply Hr, H1 in H. lia.
    - intros imag a ty a' ty' Ha Hb. eauto.
  Qed.

  Lemma minv_step st o st' e : minv st -> rstep st o = Ok (st', e) -> minv st'.
  Proof.
    intros HM Hs. destruct (touches o) eqn:Et.
    2:{ destruct (fr_step _ _ _ _ Hs Et). eapply minv_weaken; [done|unfold refs; by rewrite f_amap0, f_built0, f_sent0|by rewrite f_naddr0|..].
        - rewrite f_amap0, f_subs0. apply HM.
        - rewrite f_sent0, f_uid0. apply HM. }
    destruct o as [x origin ty|id|u|id o|x|x id|x id|x ty]; try done.
    - apply build_fields in Hs as (id & b & Eb & Ha & Hty & Es & Em & Esu & Eu & Hc).
      destruct Hc as [(Hm & Hi & En)|(Hm & Hi & Himag & En)].
      + eapply minv_weaken; [done| |by rewrite En|rewrite Em, Esu; apply HM|rewrite Es, Eu; apply HM].
        intros imag a t [H|[(id' & b' & H & H')|H]].
        * rewrite Em in H. by left.
        * rewrite Eb in H. destruct (decide (id = id')) as [<-|Hne].
          -- rewrite lookup_insert in H. inversion H; subst b'. destruct H' as (<- & <- & <-). left. by rewrite Ha, Hty.
          -- rewrite lookup_insert_ne in H by done. right. left. by exists id', b'.
        * rewrite Es in H. right. by right.
      + assert (HR : forall imag a t, refs st' imag a t -> refs st imag a t \/ (imag = r_naddr st /\ a = x /\ t = ty)).
        { intros imag a t [H|[(id' & b' & H & H')|H]].
          - rewrite Em in H. by left; left.
          - rewrite Eb in H. destruct (decide (id = id')) as [<-|Hne].
            + rewrite lookup_insert in H. inversion H; subst b'. destruct H' as (<- & <- & <-). by right.
            + rewrite lookup_insert_ne in H by done. left. right. left. by exists id', b'.
          - rewrite Es in H. left. right. by right. }
        split.
        * intros imag a t H. apply HR in H as [H|(-> & _)]; [apply (m_lt _ HM) in H|]; rewrite En; lia.
        * intros imag a t a' t' H1 H2. apply HR in H1 as [H1|(-> & -> & ->)]; apply HR in H2 as [H2|(E & -> & ->)].
          -- by eapply (m_fun _ HM).
          -- subst. apply (m_lt _ HM) in H1. lia.
          -- apply (m_lt _ HM) in H2. lia.
          -- done.
        * rewrite Em, Esu. apply HM.
        * rewrite Es, Eu. apply HM.
    - apply send_fields in Hs as [[_ ->]|(b & Hb & Eb & Es & En & Eu & Hc)]; [done|].
      assert (Hrb : refs st (b_imag b) (b_actor b) (b_type b)) by (right; left; by exists id, b).
      assert (Hsent : forall u rm, r_sent st' !! u = Some rm -> (u < r_uid st')%N).
      { intros u rm H. rewrite Es in H. rewrite Eu. destruct (decide (r_uid st = u)) as [<-|Hne]; [lia|].
        rewrite lookup_insert_ne in H by done. apply (m_uid _ HM) in H. lia. }
      destruct (b_install b) eqn:Ei; destruct Hc as [Esu Em].
      + eapply minv_weaken; [done| |by rewrite En| |done].
        * intros imag a t [H|[(id' & b' & H & H')|(u & rm & H & H')]].
          -- rewrite Em in H. destruct (r_amap st !! (b_actor b, b_type b)) eqn:E; [by left|].
             destruct (decide ((b_actor b, b_type b) = (a, t))) as [E'|E'].
             ++ inversion E'; subst. rewrite lookup_insert in H. by inversion H; subst.
             ++ rewrite lookup_insert_ne in H by done. by left.
          -- rewrite Eb in H. right. left. exists id', b'. split; [|done].
             destruct (decide (id = id')) as [<-|Hne]; [by rewrite lookup_delete in H|by rewrite lookup_delete_ne in H].
          -- rewrite Es in H. destruct (decide (r_uid st = u)) as [<-|Hne].
             ++ rewrite lookup_insert in H. inversion H; subst rm. simpl in H'. by destruct H' as (<- & <- & <-).
             ++ rewrite lookup_insert_ne in H by done. right. right. by exists u, rm.
        * intros a t imag H. rewrite Esu. rewrite Em in H.
          destruct (r_amap st !! (b_actor b, b_type b)) eqn:E; [apply elem_of_union_r; by eapply (m_subs _ HM)|].
          destruct (decide ((b_actor b, b_type b) = (a, t))) as [E'|E'].
          -- inversion E'; subst. rewrite lookup_insert in H. inversion H; subst.
             apply elem_of_union_l. by apply elem_of_singleton.
          -- rewrite lookup_insert_ne in H by done. apply elem_of_union_r. by eapply (m_subs _ HM).
      + eapply minv_weaken; [done| |by rewrite En|rewrite Esu, Em; apply HM|done].
        intros imag a t [H|[(id' & b' & H & H')|(u & rm & H & H')]].
        * rewrite Em in H. by left.
        * rewrite Eb in H. right. left. exists id', b'. split; [|done].
          destruct (decide (id = id')) as [<-|Hne]; [by rewrite lookup_delete in H|by rewrite lookup_delete_ne in H].
        * rewrite Es in H. destruct (decide (r_uid st = u)) as [<-|Hne].
          -- rewrite lookup_insert in H. inversion H; subst rm. simpl in H'. by destruct H' as (<- & <- & <-).
          -- rewrite lookup_insert_ne in H by done. right. right. by exists u, rm.
    - apply unmap_fields in Hs as [[_ ->]|(imag & Hi & Em & Esu & Eb & Es & En & Eu)]; [done|].
      assert (Hd : forall a t i, r_amap st' !! (a, t) = Some i -> (a, t) <> (x, ty) /\ r_amap st !! (a, t) = Some i).
      { intros a t i H. rewrite Em in H. destruct (decide ((x, ty) = (a, t))) as [E'|E'].
        - rewrite <- E' in H. by rewrite lookup_delete in H.
        - rewrite lookup_delete_ne in H by done. split; [congruence|done]. }
      eapply minv_weaken; [done| |by rewrite En| |rewrite Es, Eu; apply HM].
      + intros i a t [H|[H|H]].
        * apply Hd in H as [_ H]. by left.
        * rewrite Eb in H. right. by left.
        * rewrite Es in H. right. by right.
      + intros a t i H. apply Hd in H as [Hne H]. rewrite Esu. apply elem_of_difference. split; [by eapply (m_subs _ HM)|].
        intros Hx. apply elem_of_singleton in Hx as ->. apply Hne.
        destruct (m_fun _ HM imag a t x ty) as [-> ->]; [by left|by left|done].
  Qed.

  Lemma reach_minv ops st ev : run rstep rinit ops = Ok (st, ev) -> minv st.
  Proof. intros Hr. eapply (run_inv rstep minv); [|apply minv_init|exact Hr]. intros. by eapply minv_step. Qed.

  Lemma not_shared ops st ev u1 u2 r1 r2 : run rstep rinit ops = Ok (st, ev) ->
    r_sent st !! u1 = Some r1 -> r_sent st !! u2 = Some r2 -> rm_imag r1 = rm_imag r2 ->
    rm_source r1 = rm_source r2 /\ rm_type r1 = rm_type r2.
  Proof.
    intros Hr H1 H2 He. apply reach_minv in Hr. eapply (m_fun _ Hr (rm_imag r1)).
    - right. right. by exists u1, r1.
    - right. right. by exists u2, r2.
  Qed.

  Lemma mapped_has_handler ops st ev a ty imag : run rstep rinit ops = Ok (st, ev) ->
    r_amap st !! (a, ty) = Some imag -> imag ∈ r_subs st.
  Proof. intros Hr. apply reach_minv in Hr. apply (m_subs _ Hr). Qed.

  Lemma remap_fresh ops st ev a origin ty st' e : run rstep rinit ops = Ok (st, ev) ->
    r_amap st !! (a, ty) = None -> rstep st (OBuild a origin ty) = Ok (st', e) ->
    exists id b, r_built st' !! id = Some b /\ b_actor b = a /\ b_type b = ty /\ b_install b = true /\
      forall u rm, r_sent st !! u = Some rm -> rm_imag rm <> b_imag b.
  Proof.
    intros Hr Hm Hs. apply reach_minv in Hr.
    apply build_fields in Hs as (id & b & Eb & Ha & Hty & _ & _ & _ & _ & [(H & _)|(_ & Hi & Hn & _)]); [congruence|].
    exists id, b. rewrite Eb, lookup_insert. repeat (split; [done|]). intros u rm Hu He.
    assert (rm_imag rm < r_naddr st)%N; [|lia].
    eapply (m_lt _ Hr). right. right. exists u, rm. done.
  Qed.

  (** ** One address per actor and type *)
  Section Shared.
    Context (a ty u0 : N).
    Record jinv (st : rstate) : Prop := JInv {
      j_one : forall i1 i2 b1 b2, r_built st !! i1 = Some b1 -> r_built st !! i2 = Some b2 -> i1 = i2;
      j_bld : forall id b, r_built st !! id = Some b -> b_actor b = a -> b_type b = ty ->
        if b_install b then r_amap st !! (a, ty) = None else r_amap st !! (a, ty) = Some (b_imag b);
      j_sent : forall u rm, r_sent st !! u = Some rm -> (u0 <= u)%N -> rm_source rm = a -> rm_type rm = ty ->
        r_amap st !! (a, ty) = Some (rm_imag rm)
    }.

    Lemma jinv_step st o st' e : jinv st -> seq_ok st o -> o <> OUnmap a ty -> rstep st o = Ok (st', e) -> jinv st'.
    Proof.
      intros [J1 J2 J3] Hok Hne Hs. destruct (touches o) eqn:Et.
      2:{ destruct (fr_step _ _ _ _ Hs Et). split; by rewrite ?f_built0, ?f_sent0, ?f_amap0. }
      destruct o as [x origin t|id|u|id o|x|x id|x id|x t]; try done.
      - simpl in Hok. apply build_fields in Hs as (id & b & Eb & Ha & Hty & Es & Em & Esu & Eu & Hc).
        rewrite Hok in Eb. split.
        + intros i1 i2 b1 b2. rewrite Eb. intros H1 H2.
          apply lookup_insert_Some in H1 as [[<- _]|[_ H1]]; [|by rewrite lookup_empty in H1].
          apply lookup_insert_Some in H2 as [[<- _]|[_ H2]]; [done|by rewrite lookup_empty in H2].
        + intros i b'. rewrite Eb, Em. intros H. apply lookup_insert_Some in H as [[<- <-]|[_ H]]; [|by rewrite lookup_empty in H].
          intros H1 H2. rewrite <- H1, <- H2, Ha, Hty. destruct Hc as [(H & -> & _)|(H & -> & _)]; done.
        + intros u rm. rewrite Es, Em. apply J3.
      - apply send_fields in Hs as [[_ ->]|(b & Hb & Eb & Es & En & Eu & Hc)]; [done|].
        assert (Hnone : forall i b', r_built st' !! i = Some b' -> False).
        { intros i b' H. rewrite Eb in H. apply lookup_delete_Some in H as [Hx H]. apply Hx. by eapply J1. }
        split.
        + intros i1 i2 b1 b2 H. by apply Hnone in H.
        + intros i b' H. by apply Hnone in H.
        + intros u rm H Hu Ha Ht. rewrite Es in H. apply lookup_insert_Some in H as [[<- <-]|[_ H]].
          * simpl in Ha, Ht |- *. specialize (J2 id b Hb Ha Ht). destruct (b_install b); destruct Hc as [_ ->].
            -- rewrite Ha, Ht, J2. by rewrite lookup_insert.
            -- done.
          * specialize (J3 u rm H Hu Ha Ht). destruct (b_install b); destruct Hc as [_ ->]; [|done].
            destruct (r_amap st !! (b_actor b, b_type b)) eqn:E; [done|].
            rewrite lookup_insert_ne; [done|]. intros E'. inversion E'; subst. congruence.
      - apply unmap_fields in Hs as [[_ ->]|(imag & Hi & Em & Esu & Eb & Es & En & Eu)]; [done|].
        assert (E : r_amap st' !! (a, ty) = r_amap st !! (a, ty)).
        { rewrite Em, lookup_delete_ne; [done|]. intros E. inversion E; subst. done. }
        split.
        + by rewrite Eb.
        + intros i b. rewrite Eb, E. apply J2.
        + intros u rm. rewrite Es, E. apply J3.
    Qed.

    Lemma run_jinv ops : forall st st' e, jinv st -> guarded rstep seq_ok st ops -> ~ In (OUnmap a ty) ops ->
      run rstep st ops = Ok (st', e) -> jinv st'.
    Proof.
      induction ops as [|o ops IH]; intros st st' e HJ Hg Hni Hr; simpl in Hr; [by inversion Hr; subst|].
      destruct Hg as [Hok Hg]. destruct (rstep st o) as [[s1 e1]| |] eqn:Es; simpl in Hr; try done.
      destruct (run rstep s1 ops) as [[s2 e2]| |] eqn:E2; simpl in Hr; try done. inversion Hr; subst.
      simpl in Hni. eapply (IH s1); eauto. eapply jinv_step; eauto.
    Qed.
  End Shared.

  Lemma shared ops0 st0 ev0 ops st ev a ty u1 u2 r1 r2 :
    run rstep rinit ops0 = Ok (st0, ev0) -> r_built st0 = ∅ ->
    guarded rstep seq_ok st0 ops -> ~ In (OUnmap a ty) ops -> run rstep st0 ops = Ok (st, ev) ->
    r_sent st !! u1 = Some r1 -> r_sent st !! u2 = Some r2 ->
    r_sent st0 !! u1 = None -> r_sent st0 !! u2 = None ->
    rm_source r1 = a -> rm_type r1 = ty -> rm_source r2 = a -> rm_type r2 = ty ->
    rm_imag r1 = rm_imag r2 /\ r_amap st !! (a, ty) = Some (rm_imag r1).
  Proof.
    intros H0 Hb Hg Hni Hr H1 H2 N1 N2 A1 T1 A2 T2.
    (* requests sent before are all below [r_uid st0]; new ones are not *)
    assert (HN : forall u rm, r_sent st !! u = Some rm -> r_sent st0 !! u = None -> (r_uid st0 <= u)%N).
    { assert (HG : forall ops st1 st2 e, run rstep st1 ops = Ok (st2, e) ->
        (forall u rm, r_sent st2 !! u = Some rm -> r_sent st1 !! u = None -> (r_uid st1 <= u)%N) /\ (r_uid st1 <= r_uid st2)%N).
      { clear. induction ops as [|o ops IH]; intros st1 st2 e Hr; simpl in Hr; [inversion Hr; subst; split; [congruence|lia]|].
        destruct (rstep st1 o) as [[s1 e1]| |] eqn:Es; simpl in Hr; try done.
        destruct (run rstep s1 ops) as [[s2 e2]| |] eqn:E2; simpl in Hr; try done. inversion Hr; subst.
        apply IH in E2 as [I1 I2].
        assert (HS : r_sent s1 = r_sent st1 /\ r_uid s1 = r_uid st1 \/
                     exists rm, r_sent s1 = <[r_uid st1 := rm]> (r_sent st1) /\ r_uid s1 = N.succ (r_uid st1)).
        { destruct (touches o) eqn:Et; [|destruct (fr_step _ _ _ _ Es Et); by left].
          destruct o; try done.
          - apply build_fields in Es as (? & ? & ? & ? & ? & ? & ? & ? & ? & ?). by left.
          - apply send_fields in Es as [[_ ->]|(b & _ & _ & H1 & _ & H2 & _)]; [by left|right]. by eexists.
          - apply unmap_fields in Es as [[_ ->]|(? & ? & ? & ? & ? & ? & ? & ?)]; by left. }
        destruct HS as [[E1 E3]|(rm' & E1 & E3)].
        - rewrite E1, E3 in *. split; [done|lia].
        - rewrite E1, E3 in *. split; [|lia]. intros u rm Hu Hn.
          destruct (decide (r_uid st1 = u)) as [<-|Hne]; [lia|].
          assert (N.succ (r_uid st1) <= u)%N; [|lia]. eapply I1; [done|]. by rewrite lookup_insert_ne. }
      intros u rm. apply (HG _ _ _ _ Hr). }
    assert (HJ : jinv a ty (r_uid st0) st0).
    { split.
      - intros i1 i2 b1 b2 H. by rewrite Hb, lookup_empty in H.
      - intros id b H. by rewrite Hb, lookup_empty in H.
      - intros u rm H Hu. apply reach_minv in H0. apply (m_uid _ H0) in H. lia. }
    pose proof (run_jinv _ _ _ _ _ _ _ HJ Hg Hni Hr) as [_ _ J].
    pose proof (J u1 r1 H1 (HN _ _ H1 N1) A1 T1) as E1. pose proof (J u2 r2 H2 (HN _ _ H2 N2) A2 T2) as E2.
    split; [congruence|done].
  Qed.

  (** ** The reply channel stays until the mapping is removed *)
  Lemma channel_kept ops st ev a ty u rm : run rstep rinit ops = Ok (st, ev) -> ~ In (OUnmap a ty) ops ->
    r_sent st !! u = Some rm -> rm_source rm = a -> rm_type rm = ty -> rm_imag rm ∈ r_subs st.
  Proof.
    set (J := fun st : rstate =>
      (forall id b, r_built st !! id = Some b -> b_actor b = a -> b_type b = ty -> b_install b = false -> b_imag b ∈ r_subs st) /\
      (forall u rm, r_sent st !! u = Some rm -> rm_source rm = a -> rm_type rm = ty -> rm_imag rm ∈ r_subs st)).
    assert (HJ : forall ops st st' e, minv st -> J st -> ~ In (OUnmap a ty) ops -> run rstep st ops = Ok (st', e) -> J st').
    { clear. induction ops as [|o ops IH]; intros st st' e HM HJ Hni Hr; simpl in Hr; [by inversion Hr; subst|].
      destruct (rstep st o) as [[s1 e1]| |] eqn:Es; simpl in Hr; try done.
      destruct (run rstep s1 ops) as [[s2 e2]| |] eqn:E2; simpl in Hr; try done. inversion Hr; subst.
      simpl in Hni. eapply (IH s1); eauto; [by eapply minv_step|]. destruct HJ as [J1 J2].
      destruct (touches o) eqn:Et.
      2:{ destruct (fr_step _ _ _ _ Es Et). split; by rewrite ?f_built0, ?f_sent0, ?f_subs0. }
      destruct o as [x origin t|id|u|id o|x|x id|x id|x t]; try done.
      - apply build_fields in Es as (id & b & Eb & Ha & Hty & Es & Em & Esu & Eu & Hc). split.
        + intros i b'. rewrite Eb, Esu. intros H. apply lookup_insert_Some in H as [[<- <-]|[_ H]]; [|by eapply J1].
          intros H1 H2 H3. destruct Hc as [(Hm & _)|(_ & H & _)]; [|congruence]. by eapply (m_subs _ HM).
        + rewrite Es, Esu. done.
      - apply send_fields in Es as [[_ ->]|(b & Hb & Eb & Es & En & Eu & Hc)]; [done|].
        assert (Hsub : forall i, i ∈ r_subs st -> i ∈ r_subs s1).
        { intros i Hi. destruct (b_install b); destruct Hc as [-> _]; [by apply elem_of_union_r|done]. }
        split.
        + intros i b' H. rewrite Eb in H. apply lookup_delete_Some in H as [_ H]. intros. apply Hsub. by eapply J1.
        + intros u rm H Ha Ht. rewrite Es in H. apply lookup_insert_Some in H as [[<- <-]|[_ H]].
          * simpl in *. destruct (b_install b) eqn:Ei; destruct Hc as [-> _]; [|by eapply J1].
            apply elem_of_union_l. by apply elem_of_singleton.
          * apply Hsub. by eapply J2.
      - apply unmap_fields in Es as [[_ ->]|(imag & Hi & Em & Esu & Eb & Es & En & Eu)]; [done|].
        assert (HX : forall i, refs st i a ty -> i ∈ r_subs st -> i ∈ r_subs s1).
        { intros i Hri H. rewrite Esu. apply elem_of_difference. split; [done|]. intros Hx.
          apply elem_of_singleton in Hx as ->. destruct (m_fun _ HM imag a ty x t) as [-> ->]; [done|by left|]. tauto. }
        split.
        + intros i b H Ha Ht Hins. rewrite Eb in H. apply HX; [|by eapply J1]. right. left. by exists i, b.
        + intros u rm H Ha Ht. rewrite Es in H. apply HX; [|by eapply J2]. right. right. by exists u, rm. }
    intros Hr Hni. apply (HJ _ _ _ _ minv_init) in Hr as [_ H]; [by eapply H| |done].
    split.
    - intros i b H. cbn in H. by rewrite lookup_empty in H.
    - intros v r H. cbn in H. by rewrite lookup_empty in H.
  Qed.
End P.
