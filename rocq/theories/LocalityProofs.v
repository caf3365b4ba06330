(** Proofs about localities (C58). *)
From stdpp Require Import base list gmap tactics.
From Verif Require Import Base LocalityModel LocalitySpec.

(** ** The supervisors *)

Definition sup_ok (w : world) (s : nat) (x : sup) : Prop :=
  up_same w (s_place x) s (s_leader x) /\ top_of_place w (s_leader x) /\
  leader w (s_leader x) = s_leader x /\
  up w s (s_root x) /\ (exists r, w_sup w !! s_root x = Some r /\ s_parent r = None) /\
  (forall p, s_parent x = Some p -> exists y, w_sup w !! p = Some y /\ s_root x = s_root y /\
     (s_place x = s_place y -> s_leader x = s_leader y)) /\
  (match s_place x with AtRoot r => r = s_root x | _ => True end).

Definition sups_ok (w : world) : Prop := forall s x, w_sup w !! s = Some x -> sup_ok w s x.

Lemma leader_some w s x : w_sup w !! s = Some x -> leader w s = s_leader x.
Proof. unfold leader. by intros ->. Qed.
Lemma place_some w s x : w_sup w !! s = Some x -> place_of w s = s_place x.
Proof. unfold place_of. by intros ->. Qed.

Lemma up_same_mono w w' k s t : w_sup w ⊆ w_sup w' -> up_same w k s t -> up_same w' k s t.
Proof.
  intros Hs; induction 1.
  - eapply us_refl; [eapply lookup_weaken; eauto|done].
  - eapply us_step; [eapply lookup_weaken; eauto|done..].
Qed.
Lemma up_mono w w' s t : w_sup w ⊆ w_sup w' -> up w s t -> up w' s t.
Proof.
  intros Hs; induction 1 as [s [x Hx]|].
  - apply up_refl. exists x. eapply lookup_weaken; eauto.
  - eapply up_step; [eapply lookup_weaken; eauto|done..].
Qed.

Lemma up_same_ends w k s t : up_same w k s t -> place_of w s = k /\ place_of w t = k /\ exists_sup w s /\ exists_sup w t.
Proof.
  induction 1 as [s x H1 H2|s x p t H1 H2 H3 H4 IH].
  - rewrite (place_some _ _ _ H1). split_and!; [done..|by eexists|by eexists].
  - rewrite (place_some _ _ _ H1). destruct IH as (?&?&?&?). split_and!; [done..|by eexists|done].
Qed.

Lemma up_same_up w k s t : up_same w k s t -> up w s t.
Proof.
  induction 1 as [s x H1 H2|s x p t H1 H2 H3 H4 IH].
  - apply up_refl. by eexists.
  - by eapply up_step.
Qed.

Lemma sup_ok_mono w w' s x :
  sups_ok w -> w_sup w ⊆ w_sup w' -> w_sup w !! s = Some x -> sup_ok w s x -> sup_ok w' s x.
Proof.
  intros Hall Hsub Hs (H1 & H2 & H3 & H4 & H5 & H6 & H7).
  assert (Hw : forall q y, w_sup w !! q = Some y -> w_sup w' !! q = Some y)
    by (intros; eapply lookup_weaken; eauto).
  destruct (up_same_ends _ _ _ _ H1) as (_ & _ & _ & [y Hy]).
  split_and!.
  - by eapply up_same_mono.
  - destruct H2 as (z & Hz & Ht). exists z. split; [auto|]. intros p Hp.
    destruct (Hall _ _ Hz) as (_ & _ & _ & _ & _ & Hpar & _).
    destruct (Hpar _ Hp) as (v & Hv & _). specialize (Ht _ Hp).
    rewrite (place_some _ _ _ Hv) in Ht. rewrite (place_some w' p v) by auto. done.
  - rewrite (leader_some _ _ _ Hy) in H3. rewrite (leader_some w' _ y) by auto. done.
  - by eapply up_mono.
  - destruct H5 as (r & Hr & Hn). eauto.
  - intros p Hp. destruct (H6 _ Hp) as (v & Hv & Hr & Hl). eauto.
  - done.
Qed.

(** A step without a new supervisor leaves the supervisors alone. *)
Lemma put_sup w s x : w_sup (put w s x) = w_sup w.
Proof. done. Qed.
Lemma subscribe_sup w s h a w' : subscribe w s h a = Ok w' -> w_sup w' = w_sup w.
Proof. unfold subscribe. intros H. repeat case_match; simplify_eq; done. Qed.
Lemma call_external_sup w l m a hs : w_sup (call_external w l m a hs) = w_sup w.
Proof.
  revert w; induction hs as [|h hs IH]; intros w; simpl; [done|].
  rewrite IH. repeat case_match; done.
Qed.
Lemma process1_sup w l w' e : process1 w l = Ok (w', e) -> w_sup w' = w_sup w.
Proof.
  unfold process1. intros H. repeat case_match; simplify_eq; try done.
  - by rewrite call_external_sup.
  - destruct (subscribe _ _ _ _) as [w1| |] eqn:Hs; simpl in *; simplify_eq.
    by rewrite (subscribe_sup _ _ _ _ _ Hs).
Qed.

Lemma step_sup w o w' e : step w o = Ok (w', e) ->
  (exists s p k, o = OSup s p k /\
     w_sup w' = <[s := Sup p (root_of w s p) (make_address w s p k)
                         (choose_leader w s p (make_address w s p k))]> (w_sup w)) \/
  (w_sup w' = w_sup w /\ forall s p k, o <> OSup s p k).
Proof.
  intros H. destruct o; simpl in H; simplify_eq; try (right; split; [|intros; discriminate]).
  - left. eauto 10.
  - done.
  - done.
  - destruct (w_hand w !! h); simplify_eq.
    destruct (subscribe w n h a) as [w1| |] eqn:Hs; simpl in *; simplify_eq. by eapply subscribe_sup.
  - destruct (w_addr w !! a) as [t|]; simplify_eq. unfold forget in H.
    repeat case_match; simpl in *; simplify_eq; done.
  - unfold tag in H. repeat case_match; simplify_eq; done.
  - case_match; simplify_eq; done.
  - by eapply process1_sup.
Qed.

Lemma sups_ok_same w w' : w_sup w' = w_sup w -> sups_ok w -> sups_ok w'.
Proof.
  intros He H s x Hx. rewrite He in Hx. eapply sup_ok_mono; eauto. by rewrite He.
Qed.

Lemma sups_ok_new w w' s p k :
  sups_ok w -> w_sup w !! s = None -> (forall q, p = Some q -> exists_sup w q) ->
  w_sup w' = <[s := Sup p (root_of w s p) (make_address w s p k)
                      (choose_leader w s p (make_address w s p k))]> (w_sup w) ->
  sups_ok w'.
Proof.
  intros Hall Hnew Hp He.
  assert (Hsub : w_sup w ⊆ w_sup w') by (rewrite He; by apply insert_subseteq).
  assert (Hw : forall q y, w_sup w !! q = Some y -> w_sup w' !! q = Some y)
    by (intros; eapply lookup_weaken; eauto).
  intros t x Hx. rewrite He in Hx. apply lookup_insert_Some in Hx as [[<- Hx]|[Hne Hx]].
  2: { eapply sup_ok_mono; eauto. }
  assert (Hs : w_sup w' !! s = Some x) by (rewrite He, lookup_insert; by f_equal).
  unfold sup_ok. rewrite <- Hx in *. simpl.
  destruct p as [q|]; simpl in *.
  - destruct (Hp q eq_refl) as [y Hy]. rewrite Hy in *.
    pose proof (Hall _ _ Hy) as Hqo. pose proof (sup_ok_mono _ _ _ _ Hall Hsub Hy Hqo) as (H1 & H2 & H3 & H4 & H5 & H6 & H7).
    rewrite (place_some _ _ _ Hy), (leader_some _ _ _ Hy) in *.
    case_decide as Hd.
    + split_and!; try done.
      * eapply us_step; [exact Hs|done|done|]. simpl. by rewrite <- Hd.
      * eapply up_step; [exact Hs|done|done].
      * intros p' [= <-]. eauto.
      * destruct k; simpl; [by rewrite Hy|done].
    + split_and!; try done.
      * eapply us_refl; [exact Hs|done].
      * eexists; split; [exact Hs|]. simpl. intros p' [= <-].
        rewrite (place_some w' _ y) by auto. done.
      * by rewrite (leader_some _ _ _ Hs).
      * eapply up_step; [exact Hs|done|done].
      * intros p' [= <-]. exists y. split_and!; [auto|done|]. intros Hc; by rewrite Hc in Hd.
      * destruct k; simpl; [by rewrite Hy|done].
  - split_and!; try done.
    + eapply us_refl; [exact Hs|done].
    + eexists; split; [exact Hs|]. done.
    + by rewrite (leader_some _ _ _ Hs).
    + apply up_refl. by eexists.
    + eexists; split; [exact Hs|done].
    + by destruct k.
Qed.

(** ** Where things are *)

Record wf (w : world) : Prop := {
  wf_sup : sups_ok w;
  wf_addr : forall a t, w_addr w !! a = Some t -> exists_sup w t;
  wf_hand : forall h t, w_hand w !! h = Some t -> exists_sup w t;
  wf_map : forall l a h, (a, h) ∈ map_of w l ->
     exists_sup w l /\ leader w l = l /\ is_Some (w_hand w !! h) /\
     exists t, w_addr w !! a = Some t /\ place_of w t = place_of w l;
  wf_queue : forall l x, x ∈ queue_of w l ->
     exists_sup w l /\ leader w l = l /\ is_Some (dest w x) /\
     match x with MSubscribe _ h => is_Some (w_hand w !! h) | MCall _ _ a => is_Some (w_addr w !! a) | _ => True end
}.

Lemma wf_init : wf init.
Proof.
  constructor; try done.
  - intros l a h. unfold map_of, init; simpl. rewrite lookup_empty. simpl. by rewrite elem_of_nil.
  - intros l x. unfold queue_of, init; simpl. rewrite lookup_empty. simpl. by rewrite elem_of_nil.
Qed.

Lemma wf_leader w s : sups_ok w -> exists_sup w s ->
  exists_sup w (leader w s) /\ leader w (leader w s) = leader w s /\ place_of w (leader w s) = place_of w s.
Proof.
  intros Hw [x Hx]. destruct (Hw _ _ Hx) as (H1 & H2 & H3 & _).
  rewrite (leader_some _ _ _ Hx), (place_some _ _ _ Hx).
  destruct (up_same_ends _ _ _ _ H1) as (_ & ? & _ & ?). done.
Qed.

Lemma queue_set w l q l' : queue_of (set_queue w l q) l' = if decide (l = l') then q else queue_of w l'.
Proof.
  unfold queue_of, set_queue; simpl. case_decide; subst.
  - by rewrite lookup_insert.
  - by rewrite lookup_insert_ne.
Qed.
Lemma map_set w l m l' : map_of (set_map w l m) l' = if decide (l = l') then m else map_of w l'.
Proof.
  unfold map_of, set_map; simpl. case_decide; subst.
  - by rewrite lookup_insert.
  - by rewrite lookup_insert_ne.
Qed.

Lemma queue_put w s x l : queue_of (put w s x) l =
  if decide (leader w s = l) then queue_of w l ++ [x] else queue_of w l.
Proof. unfold put. rewrite queue_set. case_decide; by subst. Qed.

Definition msg_ok (w : world) (x : lmsg) : Prop :=
  is_Some (dest w x) /\
  match x with MSubscribe _ h => is_Some (w_hand w !! h) | MCall _ _ a => is_Some (w_addr w !! a) | _ => True end.

Lemma wf_put w s x : wf w -> exists_sup w s -> msg_ok w x -> wf (put w s x).
Proof.
  intros Hw Hs [Hd Hm]. destruct Hw as [H1 H2 H3 H4 H5].
  destruct (wf_leader _ _ H1 Hs) as (Hl1 & Hl2 & _).
  constructor; try done; [by apply (sups_ok_same w)|].
  intros l y. rewrite queue_put. case_decide as He; [|apply H5].
  subst l. rewrite elem_of_app, elem_of_list_singleton. intros [Hy| ->]; [by apply H5|].
  split_and!; done.
Qed.

Lemma wf_pop w l x q : wf w -> queue_of w l = x :: q -> wf (set_queue w l q).
Proof.
  intros [H1 H2 H3 H4 H5] Hq. constructor; try done; [by apply (sups_ok_same w)|].
  intros l' y. rewrite queue_set. case_decide; [subst l'|apply H5].
  intros Hy. apply H5. rewrite Hq. by right.
Qed.

Lemma wf_add w l a h t :
  wf w -> exists_sup w l -> leader w l = l -> is_Some (w_hand w !! h) -> w_addr w !! a = Some t ->
  place_of w t = place_of w l -> wf (set_map w l (map_of w l ++ [(a, h)])).
Proof.
  intros [H1 H2 H3 H4 H5] Hl Hll Hh Ha Hp. constructor; try done; [by apply (sups_ok_same w)|].
  intros l' a' h'. rewrite map_set. case_decide; [subst l'|apply H4].
  rewrite elem_of_app, elem_of_list_singleton. intros [Hy|[= -> ->]]; [by apply H4|].
  split_and!; eauto.
Qed.

Lemma wf_subscribe w s h a :
  wf w -> exists_sup w s -> is_Some (w_hand w !! h) -> is_Some (w_addr w !! a) ->
  exists w', subscribe w s h a = Ok w' /\ wf w'.
Proof.
  intros Hw Hs Hh [t Ha]. unfold subscribe. rewrite Ha.
  destruct (wf_leader _ _ (wf_sup _ Hw) Hs) as (Hl1 & Hl2 & Hl3).
  case_decide as Hd; (eexists; split; [done|]).
  - eapply wf_add; eauto.
  - apply wf_put; [done|done|]. split; simpl; eauto.
Qed.

Lemma drop_first_in x l : x ∈ l -> exists l', drop_first x l = Some l'.
Proof.
  induction l as [|y l IH]; [by rewrite elem_of_nil|]. intros Hx. simpl.
  case_decide as Hd; [eauto|]. apply elem_of_cons in Hx as [->|Hx]; [done|].
  destruct (IH Hx) as [l' ->]. simpl. eauto.
Qed.
Lemma drop_first_sub x l l' y : drop_first x l = Some l' -> y ∈ l' -> y ∈ l.
Proof.
  revert l'; induction l as [|z l IH]; intros l'; simpl; [done|].
  case_decide; [intros [= ->]; by right|].
  destruct (drop_first x l) as [l1|] eqn:H1; simpl; [|done]. intros [= <-].
  rewrite !elem_of_cons. intros [->|Hy]; [by left|right; eauto].
Qed.

Lemma call_external_eq w l m a hs :
  w_sup (call_external w l m a hs) = w_sup w /\ w_addr (call_external w l m a hs) = w_addr w /\
  w_hand (call_external w l m a hs) = w_hand w /\ w_map (call_external w l m a hs) = w_map w.
Proof.
  revert w; induction hs as [|h hs IH]; intros w; simpl; [done|].
  destruct (IH (match w_hand w !! h with
                | Some s => if external w l h then put w s (MCall h m a) else w
                | None => w end)) as (-> & -> & -> & ->).
  repeat case_match; done.
Qed.

Lemma wf_call_external w l m a hs :
  wf w -> is_Some (w_addr w !! a) -> wf (call_external w l m a hs).
Proof.
  revert w; induction hs as [|h hs IH]; intros w Hw Ha; simpl; [done|].
  destruct (w_hand w !! h) as [s|] eqn:Hh; [|by apply IH].
  destruct (external w l h); [|by apply IH].
  apply IH; [|done]. apply wf_put; [done| |].
  - by eapply wf_hand.
  - split; simpl; eauto.
Qed.

Lemma elem_recipients w l a h : h ∈ recipients w l a <-> (a, h) ∈ map_of w l.
Proof.
  unfold recipients. rewrite elem_of_list_omap. split.
  - intros ([b h'] & Hin & Hc). case_decide; simplify_eq. done.
  - intros Hin. exists (a, h). split; [done|]. by rewrite decide_True.
Qed.

Lemma wf_process w l : wf w -> exists_sup w l -> leader w l = l ->
  exists w' e, process1 w l = Ok (w', e) /\ wf w'.
Proof.
  intros Hw Hl Hll. unfold process1. rewrite Hll.
  destruct (queue_of w l) as [|x q] eqn:Hq; [eauto|].
  destruct (wf_queue _ Hw l x) as (_ & _ & [t Ht] & Hx); [rewrite Hq; by left|].
  rewrite Ht. pose proof (wf_pop _ _ _ _ Hw Hq) as Hw0.
  assert (Hte : exists_sup w t).
  { destruct x; simpl in Ht; [eapply wf_addr|eapply wf_addr|eapply wf_hand]; eauto. }
  case_decide as Hd.
  - destruct x as [m a|a h|h m a]; simpl in Ht.
    + eexists _, _; split; [done|]. apply wf_call_external; [done|]. simpl. eauto.
    + case_decide as Hlt; [|eauto].
      destruct (wf_subscribe (set_queue w l q) t h a) as (w' & -> & Hw'); simpl; eauto.
    + case_decide as Hlt; eauto.
  - eexists _, _; split; [done|]. apply wf_put; [done|done|]. split; simpl; [by eexists|done].
Qed.

(** Supervisors, addresses and handlers only come; the rest is unchanged. *)
Lemma wf_grow w w' :
  wf w -> sups_ok w' -> w_sup w ⊆ w_sup w' -> w_addr w ⊆ w_addr w' -> w_hand w ⊆ w_hand w' ->
  (forall a t, w_addr w' !! a = Some t -> exists_sup w' t) ->
  (forall a t, w_hand w' !! a = Some t -> exists_sup w' t) ->
  w_map w' = w_map w -> w_queue w' = w_queue w -> wf w'.
Proof.
  intros [H1 H2 H3 H4 H5] Hs Hsub Ha Hh Ha' Hh' Hm Hq.
  assert (Hl : forall s, exists_sup w s -> exists_sup w' s /\ leader w' s = leader w s /\ place_of w' s = place_of w s).
  { intros s [x Hx]. assert (Hx' : w_sup w' !! s = Some x) by (eapply lookup_weaken; eauto).
    rewrite (leader_some _ _ _ Hx), (place_some _ _ _ Hx), (leader_some _ _ _ Hx'), (place_some _ _ _ Hx').
    split_and!; [by eexists|done..]. }
  constructor; try done.
  - intros l a h Hin. unfold map_of in Hin. rewrite Hm in Hin.
    destruct (H4 l a h Hin) as (Hl1 & Hl2 & [s Hs1] & t & Ht & Hp).
    destruct (Hl _ Hl1) as (? & -> & ->). destruct (Hl _ (H2 _ _ Ht)) as (? & _ & Hp').
    split_and!; [done..| |exists t; split].
    + exists s. eapply lookup_weaken; eauto.
    + eapply lookup_weaken; eauto.
    + by rewrite Hp'.
  - intros l x Hin. unfold queue_of in Hin. rewrite Hq in Hin.
    destruct (H5 l x Hin) as (Hl1 & Hl2 & [t Ht] & Hx).
    destruct (Hl _ Hl1) as (? & -> & _).
    split_and!; [done..| |].
    + exists t. destruct x; simpl in *; (eapply lookup_weaken; [exact Ht|done]).
    + destruct x; try done; destruct Hx as [y Hy]; exists y; eapply lookup_weaken; eauto.
Qed.

(** Except for the tag, nothing can fail. *)
Lemma wf_step w o : wf w -> ok w o -> (forall h a, o <> OTag h a) ->
  exists w' e, step w o = Ok (w', e) /\ wf w'.
Proof.
  intros Hw Ho Ht. destruct o as [s p k|a s|h s|h a|h a|h a|s m a|s]; simpl in *.
  - eexists _, _; split; [done|]. destruct Ho as (H1 & H2 & H3 & H4).
    apply (wf_grow w); simpl; try done.
    + eapply sups_ok_new; [apply Hw|done|done|done].
    + by apply insert_subseteq.
    + intros a t Ha. destruct (wf_addr _ Hw _ _ Ha) as [y Hy]. exists y. simpl.
      rewrite lookup_insert_ne; [done|]. intros ->. by rewrite H1 in Hy.
    + intros a t Ha. destruct (wf_hand _ Hw _ _ Ha) as [y Hy]. exists y. simpl.
      rewrite lookup_insert_ne; [done|]. intros ->. by rewrite H1 in Hy.
  - eexists _, _; split; [done|]. destruct Ho as (H1 & H2).
    apply (wf_grow w); simpl; try done.
    + by eapply sups_ok_same; [|apply Hw].
    + by apply insert_subseteq.
    + intros b t Hb. apply lookup_insert_Some in Hb as [[-> <-]|[_ Hb]]; [done|]. by eapply (wf_addr w).
    + by apply (wf_hand w).
  - eexists _, _; split; [done|]. destruct Ho as (H1 & H2).
    apply (wf_grow w); simpl; try done.
    + by eapply sups_ok_same; [|apply Hw].
    + by apply insert_subseteq.
    + by apply (wf_addr w).
    + intros b t Hb. apply lookup_insert_Some in Hb as [[-> <-]|[_ Hb]]; [done|]. by eapply (wf_hand w).
  - destruct Ho as [[s Hs] Ha]. rewrite Hs.
    destruct (wf_subscribe w s h a) as (w' & -> & Hw'); simpl; eauto. by eapply wf_hand.
  - destruct Ho as (t & Ha & Hin). rewrite Ha. unfold forget.
    destruct (drop_first_in _ _ Hin) as [l' Hl']. rewrite Hl'. simpl. eexists _, _; split; [done|].
    destruct Hw as [H1 H2 H3 H4 H5]. constructor; try done; [by apply (sups_ok_same w)|].
    intros l a' h'. rewrite map_set. case_decide; [subst l|apply H4].
    intros Hy. apply H4. by eapply drop_first_sub.
  - by destruct (Ht h a).
  - destruct Ho as [Hs [t Ha]]. rewrite Ha. eexists _, _; split; [done|].
    apply wf_put; [done|done|]. split; simpl; eauto.
  - destruct (wf_leader _ _ (wf_sup _ Hw) Ho) as (? & ? & _).
    by apply wf_process.
Qed.

(** ** The tag: works exactly for a supervisor which leads, or a foreign address *)
Lemma tag_iff w h a t s :
  wf w -> ok w (OTag h a) -> w_addr w !! a = Some t -> w_hand w !! h = Some s ->
  (step w (OTag h a) = Ok (w, [ETagged a h]) <-> place_of w t <> place_of w s \/ leader w s = s) /\
  (step w (OTag h a) = AssertFail <-> place_of w t = place_of w s /\ leader w s <> s).
Proof.
  intros Hw (t' & s' & Ht & Hs & Ho) Ht' Hs'. simplify_eq. simpl. unfold tag. rewrite Ht, Hs.
  case_decide as Hd; [|naive_solver]. destruct Ho as [Ho|Ho]; [done|].
  case_decide as Hi.
  - destruct (wf_map _ Hw _ _ _ Hi) as (_ & Hl & _). naive_solver.
  - assert (Hl : leader w s' <> s') by (intros Hl; rewrite Hl in Ho; done). naive_solver.
Qed.

Lemma step_wf w o w' e : wf w -> ok w o -> step w o = Ok (w', e) -> wf w'.
Proof.
  intros Hw Ho Hs.
  assert ({o' : nat * nat | o = OTag o'.1 o'.2} + {forall h a, o <> OTag h a}) as [[[h a] Hc]|Hc].
  { destruct o; try (right; intros; discriminate). left. by exists (h, a). }
  - simpl in Hc. subst o. simpl in Hs. unfold tag in Hs. repeat case_match; simplify_eq; done.
  - destruct (wf_step _ _ Hw Ho Hc) as (w1 & e1 & He & Hw1). rewrite He in Hs. by simplify_eq.
Qed.

Lemma reaches_wf ops w ev : reaches ops w ev -> wf w.
Proof.
  intros [Hg Hr].
  refine (run_inv_ev step ok (fun w _ => wf w) _ ops init [] w ev wf_init Hg Hr).
  intros w1 _ o w2 e Hw Ho Hs. by eapply step_wf.
Qed.

Lemma runs ops :
  guarded step (fun w o => ok w o /\ forall h a t s, o = OTag h a -> w_addr w !! a = Some t ->
                  w_hand w !! h = Some s -> place_of w t <> place_of w s \/ leader w s = s) init ops ->
  exists w ev, run step init ops = Ok (w, ev).
Proof.
  intros Hg.
  destruct (run_safe_ev step (fun w o => ok w o /\ forall h a t s, o = OTag h a -> w_addr w !! a = Some t ->
                  w_hand w !! h = Some s -> place_of w t <> place_of w s \/ leader w s = s)
              (fun w _ => wf w)) with (ops := ops) (s := init) (ev := @nil lev) as (w & e & Hr & _);
    [|apply wf_init|exact Hg|eauto].
  intros w _ o Hw [Ho Ht].
  assert ({o' : nat * nat | o = OTag o'.1 o'.2} + {forall h a, o <> OTag h a}) as [[[h a] Hc]|Hc].
  { destruct o; try (right; intros; discriminate). left. by exists (h, a). }
  - simpl in Hc. subst o. pose proof Ho as (t & s & H1 & H2 & _).
    exists w, [ETagged a h]. split; [|done]. eapply tag_iff; eauto.
  - by apply wf_step.
Qed.

(** ** One leader per locality *)

Lemma coherent_init : coherent init.
Proof. intros s t [x Hx]. done. Qed.

Lemma coherent_grow w w' : coherent w -> w_sup w' = w_sup w -> coherent w'.
Proof.
  intros H He s t Hs Ht Hp. unfold exists_sup, place_of, leader in *. rewrite He in *.
  by apply (H s t).
Qed.

Lemma coherent_step w o w' e :
  wf w -> coherent w -> ok w o -> orderly w o -> step w o = Ok (w', e) -> coherent w'.
Proof.
  intros Hw Hc Ho Hd Hs. destruct (step_sup _ _ _ _ Hs) as [(s & p & k & -> & He)|[He _]].
  2: by eapply coherent_grow.
  simpl in Ho, Hd. destruct Ho as (Hnew & _ & _ & Hp).
  assert (Hold : forall t, t <> s -> exists_sup w' t ->
            exists_sup w t /\ place_of w' t = place_of w t /\ leader w' t = leader w t).
  { intros t Hne Ht. unfold exists_sup, place_of, leader in *. rewrite He in *.
    by rewrite lookup_insert_ne in *. }
  assert (Hns : place_of w' s = make_address w s p k /\
                leader w' s = choose_leader w s p (make_address w s p k)).
  { unfold place_of, leader. rewrite He, lookup_insert. done. }
  assert (Hcase : forall t, exists_sup w' t -> t <> s -> place_of w' t = place_of w' s -> leader w' t = leader w' s).
  { intros t Ht Hne Hpl. destruct (Hold _ Hne Ht) as (Ht1 & Ht2 & Ht3).
    destruct Hns as [Hn1 Hn2]. rewrite Ht2, Hn1 in Hpl. rewrite Ht3, Hn2.
    destruct Hd as [(q & -> & Hq)|Hd]; [|by apply Hd in Ht1].
    simpl. rewrite decide_True by done. apply Hc; [done|by apply Hp|]. by rewrite Hq. }
  intros u v Hu Hv Hpl.
  destruct (decide (u = s)) as [->|Hus], (decide (v = s)) as [->|Hvs]; [done| | |].
  - symmetry. by apply Hcase.
  - by apply Hcase.
  - destruct (Hold _ Hus Hu) as (? & ? & ->). destruct (Hold _ Hvs Hv) as (? & ? & ->).
    apply Hc; [done..|]. congruence.
Qed.

(** All supervisors have the [make_address] of supervisor_t. *)
Definition all_default (w : world) : Prop :=
  forall s x, w_sup w !! s = Some x -> s_place x = AtRoot (s_root x) /\ s_leader x = s_root x.

Lemma default_step w o w' e :
  wf w -> all_default w -> ok w o -> match o with OSup _ _ (Strand _) => False | _ => True end ->
  step w o = Ok (w', e) -> all_default w'.
Proof.
  intros Hw Hd Ho Hk Hs. destruct (step_sup _ _ _ _ Hs) as [(s & p & k & -> & He)|[He _]].
  2: { intros s x. rewrite He. apply Hd. }
  simpl in Ho. destruct Ho as (Hnew & _ & _ & Hp). destruct k; [|done].
  intros t x Hx. rewrite He in Hx. apply lookup_insert_Some in Hx as [[<- <-]|[_ Hx]]; [|by eapply Hd].
  simpl. split; [done|]. destruct p as [q|]; simpl; [|done].
  destruct (Hp q eq_refl) as [y Hy]. rewrite Hy.
  destruct (Hd _ _ Hy) as [H1 H2]. rewrite (place_some _ _ _ Hy), (leader_some _ _ _ Hy).
  by rewrite decide_True.
Qed.

Lemma reaches_default ops w ev : sups_default ops -> reaches ops w ev -> all_default w.
Proof.
  intros Hd [Hg Hr].
  assert (Hgen : forall w0, wf w0 -> all_default w0 -> guarded step ok w0 ops ->
            forall w' e', run step w0 ops = Ok (w', e') -> all_default w').
  { clear Hg Hr. induction Hd as [|o ops Ho Hd IH]; intros w0 Hw H0 Hg w' e' Hr; simpl in Hr; simplify_eq; [done|].
    destruct Hg as [Hok Hg]. destruct (step w0 o) as [[w1 e1]| |] eqn:Hs; simpl in Hr; try done.
    destruct (run step w1 ops) as [[w2 e2]| |] eqn:Hr2; simpl in Hr; simplify_eq.
    eapply (IH w1); eauto; [by eapply step_wf|by eapply default_step]. }
  eapply (Hgen init); eauto; [apply wf_init|]. intros s x Hx. done.
Qed.

Lemma default_coherent w : all_default w -> coherent w.
Proof.
  intros Hd s t [x Hx] [y Hy]. rewrite (place_some _ _ _ Hx), (place_some _ _ _ Hy),
    (leader_some _ _ _ Hx), (leader_some _ _ _ Hy).
  destruct (Hd _ _ Hx) as [-> ->], (Hd _ _ Hy) as [-> ->]. by intros [= ->].
Qed.

(** ** Delivery *)

(** A subscription is stored at the leader of the address. *)
Lemma stored_at w l a h t :
  wf w -> coherent w -> (a, h) ∈ map_of w l -> w_addr w !! a = Some t -> l = leader w t.
Proof.
  intros Hw Hc Hin Ha. destruct (wf_map _ Hw _ _ _ Hin) as (Hl1 & Hl2 & _ & t' & Ha' & Hp).
  simplify_eq. rewrite <- Hl2. apply Hc; [done|by eapply wf_addr|done].
Qed.


Lemma count_app {A} (f : A -> bool) l1 l2 : count f (l1 ++ l2) = count f l1 + count f l2.
Proof. unfold count. by rewrite filter_app, app_length. Qed.

Lemma count_run_internal w l m a h hs :
  count (is_run h m a) (run_internal w l m a hs) =
  if external w l h then 0 else count_occ Nat.eq_dec hs h.
Proof.
  induction hs as [|g hs IH]; simpl; [by destruct (external w l h)|].
  unfold run_internal in *; simpl.
  destruct (Nat.eq_dec g h) as [->|Hne].
  - destruct (external w l h) eqn:He; [done|]. unfold count in *; simpl. rewrite bool_decide_true by done.
    simpl. by rewrite IH.
  - destruct (external w l g); [done|]. unfold count in *; simpl.
    rewrite bool_decide_false by naive_solver. done.
Qed.

Lemma external_put w s x l h : external (put w s x) l h = external w l h.
Proof. done. Qed.

Lemma count_call_external w l m a h s hs l' :
  w_hand w !! h = Some s ->
  count (is_call h m a) (queue_of (call_external w l m a hs) l') =
  count (is_call h m a) (queue_of w l') +
  if external w l h then if decide (leader w s = l') then count_occ Nat.eq_dec hs h else 0 else 0.
Proof.
  intros Hh. revert w Hh; induction hs as [|g hs IH]; intros w Hh; simpl.
  - destruct (external w l h); [case_decide|]; lia.
  - destruct (w_hand w !! g) as [sg|] eqn:Hg.
    2: { rewrite IH by done. destruct (Nat.eq_dec g h) as [->|Hne]; [by rewrite Hh in Hg|done]. }
    destruct (external w l g) eqn:He.
    + rewrite IH by done. rewrite queue_put.
      change (external (put w sg (MCall g m a)) l h) with (external w l h).
      change (leader (put w sg (MCall g m a)) s) with (leader w s).
      destruct (Nat.eq_dec g h) as [->|Hne].
      * rewrite Hh in Hg. simplify_eq. rewrite He. case_decide; [|lia].
        rewrite count_app. unfold count at 2; simpl. rewrite bool_decide_true by done. simpl. lia.
      * assert (Hz : count (is_call h m a) [MCall g m a] = 0)
          by (unfold count; simpl; rewrite bool_decide_false by naive_solver; done).
        destruct (decide (leader w sg = l')); [rewrite count_app, Hz; lia|done].
    + rewrite IH by done. destruct (Nat.eq_dec g h) as [->|Hne]; [by rewrite He|done].
Qed.

(** One turn of the dispatcher of a locality. *)
Lemma turn_user w l m a q t :
  wf w -> coherent w -> exists_sup w l -> leader w l = l -> queue_of w l = MUser m a :: q ->
  w_addr w !! a = Some t ->
  exists w' e, process1 w l = Ok (w', e) /\
    if decide (leader w t = l) then
      EDispatch l (MUser m a) ∈ e /\
      forall h s, w_hand w !! h = Some s ->
        if decide (leader w s = l)
        then count (is_run h m a) e = subs_in w l a h /\
             (forall l', count (is_call h m a) (queue_of w' l') =
                         count (is_call h m a) (queue_of (set_queue w l q) l'))
        else count (is_run h m a) e = 0 /\
             (forall l', count (is_call h m a) (queue_of w' l') =
                         count (is_call h m a) (queue_of (set_queue w l q) l') +
                         if decide (leader w s = l') then subs_in w l a h else 0)
    else
      e = [EForward l (MUser m a)] /\
      queue_of w' (leader w t) = queue_of w (leader w t) ++ [MUser m a].
Proof.
  intros Hw Hc Hl Hll Hq Ha. unfold process1. rewrite Hll, Hq. simpl. rewrite Ha.
  pose proof (wf_addr _ Hw _ _ Ha) as Ht.
  destruct (decide (place_of w t = place_of w l)) as [Hp|Hp].
  - assert (Hlt : leader w t = l) by (rewrite <- Hll; by apply Hc).
    destruct (decide (leader w t = l)); [|done]. eexists _, _; split; [done|]. split; [by left|].
    intros h s Hh. pose proof (wf_hand _ Hw _ _ Hh) as Hs.
    set (w0 := set_queue w l q).
    assert (Hx : external w0 l h = bool_decide (place_of w s <> place_of w l))
      by (unfold external; simpl; by rewrite Hh).
    assert (Hr : forall e, count (is_run h m a) (EDispatch l (MUser m a) :: e) = count (is_run h m a) e) by done.
    rewrite Hr, count_run_internal, Hx.
    destruct (decide (leader w s = l)) as [Hls|Hls].
    + assert (Hps : place_of w s = place_of w l).
      { destruct (wf_leader _ _ (wf_sup _ Hw) Hs) as (_ & _ & Hpl). by rewrite Hls in Hpl. }
      rewrite bool_decide_false by (intros Hn; by apply Hn). split; [done|]. intros l'.
      rewrite (count_call_external w0 l m a h s) by done. rewrite Hx.
      rewrite bool_decide_false by (intros Hn; by apply Hn). lia.
    + assert (Hps : place_of w s <> place_of w l).
      { intros Hps. apply Hls. rewrite <- Hll. by apply Hc. }
      rewrite bool_decide_true by done. split; [done|]. intros l'.
      rewrite (count_call_external w0 l m a h s) by done. rewrite Hx.
      rewrite bool_decide_true by done. done.
  - destruct (decide (leader w t = l)) as [Hlt|_].
    { exfalso. apply Hp. destruct (wf_leader _ _ (wf_sup _ Hw) Ht) as (_ & _ & Hpl).
      by rewrite Hlt in Hpl. }
    eexists _, _; split; [done|]. split; [done|].
    rewrite queue_put. change (leader (set_queue w l q) t) with (leader w t).
    rewrite decide_True by done. rewrite queue_set.
    destruct (decide (l = leader w t)) as [He|He]; [|done].
    exfalso. apply Hp. destruct (wf_leader _ _ (wf_sup _ Hw) Ht) as (_ & _ & Hpl).
    by rewrite <- He in Hpl.
Qed.

(** The system messages. *)
Lemma turn_system w l x q t :
  wf w -> coherent w -> exists_sup w l -> leader w l = l -> queue_of w l = x :: q ->
  dest w x = Some t -> (forall m a, x <> MUser m a) ->
  exists w' e, process1 w l = Ok (w', e) /\
    if decide (leader w t = l) then
      match x with
      | MSubscribe a h => e = [EDispatch l x] /\ map_of w' l = map_of w l ++ [(a, h)]
      | MCall h m a => e = [EDispatch l x; ERun l h m a]
      | _ => False
      end
    else e = [EForward l x] /\ queue_of w' (leader w t) = queue_of w (leader w t) ++ [x].
Proof.
  intros Hw Hc Hl Hll Hq Ha Hx. unfold process1. rewrite Hll, Hq, Ha.
  assert (Ht : exists_sup w t).
  { destruct x; simpl in Ha; [eapply wf_addr|eapply wf_addr|eapply wf_hand]; eauto. }
  destruct (wf_leader _ _ (wf_sup _ Hw) Ht) as (_ & _ & Hpl).
  destruct (decide (place_of w t = place_of w l)) as [Hp|Hp].
  - assert (Hlt : leader w t = l) by (rewrite <- Hll; by apply Hc).
    destruct (decide (leader w t = l)); [|done].
    destruct x as [m a|a h|h m a]; [by destruct (Hx m a)| |].
    + simpl in Ha. unfold subscribe. simpl. rewrite Ha.
      change (leader (set_queue w l q) t) with (leader w t). rewrite Hlt.
      rewrite decide_True by done. simpl. eexists _, _; split; [done|]. split; [done|].
      rewrite map_set, decide_True by done. done.
    + eexists _, _; split; [done|]. done.
  - destruct (decide (leader w t = l)) as [Hlt|_].
    { exfalso. apply Hp. by rewrite Hlt in Hpl. }
    eexists _, _; split; [done|]. split; [done|].
    rewrite queue_put. change (leader (set_queue w l q) t) with (leader w t).
    rewrite decide_True by done. rewrite queue_set.
    destruct (decide (l = leader w t)) as [He|He]; [|done].
    exfalso. apply Hp. by rewrite <- He in Hpl.
Qed.

(** ** Nothing is lost *)

Lemma right_place_later w o w' e x :
  wf w -> ok w o -> step w o = Ok (w', e) -> right_place w x -> right_place w' x.
Proof.
  intros Hw Ho Hs Hr.
  assert (Hsup : w_sup w ⊆ w_sup w').
  { destruct (step_sup _ _ _ _ Hs) as [(s & p & k & -> & ->)|[-> _]]; [|done].
    apply insert_subseteq. by destruct Ho. }
  assert (Hah : w_addr w ⊆ w_addr w' /\ w_hand w ⊆ w_hand w').
  { destruct o; simpl in Hs; simplify_eq; simpl; try done.
    - split; [|done]. apply insert_subseteq. by destruct Ho.
    - split; [done|]. apply insert_subseteq. by destruct Ho.
    - unfold subscribe, put in Hs. repeat case_match; simpl in *; simplify_eq; done.
    - unfold forget in Hs. repeat case_match; simpl in *; simplify_eq; done.
    - unfold tag in Hs. repeat case_match; simplify_eq; done.
    - case_match; simplify_eq; done.
    - unfold process1, subscribe, put in Hs. repeat case_match; simpl in *; simplify_eq; try done.
      edestruct call_external_eq as (_ & -> & -> & _). done. }
  destruct Hah as [Ha Hh].
  assert (Hl : forall s, exists_sup w s -> leader w' s = leader w s).
  { intros s [y Hy]. rewrite (leader_some _ _ _ Hy). apply leader_some. eapply lookup_weaken; eauto. }
  assert (Hd : forall y t, dest w y = Some t -> dest w' y = Some t).
  { intros y t Ht. destruct y; simpl in *; eapply lookup_weaken; eauto. }
  assert (He : forall y t, dest w y = Some t -> exists_sup w t).
  { intros y t Ht. destruct y; simpl in *; [eapply wf_addr|eapply wf_addr|eapply wf_hand]; eauto. }
  destruct x as [l y|l y|l h m a|l y|a h]; simpl in *; try done.
  - destruct Hr as (t & Ht & Hn). exists t. rewrite Hl by eauto. eauto.
  - destruct Hr as (t & Ht & Hn). exists t. rewrite Hl by eauto. eauto.
  - destruct Hr as (t & Ht & Hn). exists t. rewrite Hl by (by eapply wf_hand). split; [|done].
    eapply lookup_weaken; eauto.
Qed.

Lemma right_place_now w o w' e :
  wf w -> coherent w -> ok w o -> step w o = Ok (w', e) -> Forall (right_place w) e.
Proof.
  intros Hw Hc Ho Hs.
  destruct o as [s p k|a s|h s|h a|h a|h a|s m a|s]; simpl in Hs, Ho; simplify_eq; try constructor.
  - unfold subscribe in Hs. repeat case_match; simpl in *; simplify_eq; constructor.
  - unfold forget in Hs. repeat case_match; simpl in *; simplify_eq; constructor.
  - unfold tag in Hs. repeat case_match; simplify_eq; by repeat constructor.
  - case_match; simplify_eq; constructor.
  - destruct (wf_leader _ _ (wf_sup _ Hw) Ho) as (Hl & Hll & _).
    set (l := leader w s) in *. unfold process1 in Hs. rewrite Hll in Hs.
    destruct (queue_of w l) as [|x q] eqn:Hq; [by simplify_eq|].
    destruct (wf_queue _ Hw l x) as (_ & _ & [t Ht] & Hx); [rewrite Hq; by left|].
    rewrite Ht in Hs.
    assert (Hte : exists_sup w t).
    { destruct x; simpl in Ht; [eapply wf_addr|eapply wf_addr|eapply wf_hand]; eauto. }
    destruct (wf_leader _ _ (wf_sup _ Hw) Hte) as (_ & _ & Hpl).
    destruct (decide (place_of w t = place_of w l)) as [Hp|Hp].
    + assert (Hlt : leader w t = l) by (rewrite <- Hll; by apply Hc).
      destruct x as [m a|a h|h m a]; simpl in Ht.
      * simplify_eq. constructor; [simpl; eauto|]. apply Forall_forall. intros y Hy.
        apply elem_of_list_In in Hy. unfold run_internal in Hy. apply elem_of_list_omap in Hy as (h & Hin & Hh).
        destruct (external _ _ _) eqn:He; simplify_eq. simpl.
        apply elem_recipients in Hin. destruct (wf_map _ Hw _ _ _ Hin) as (_ & _ & [sh Hsh] & _).
        exists sh. split; [done|]. unfold external in He. simpl in He. rewrite Hsh in He.
        apply bool_decide_eq_false in He. change (place_of (set_queue w (leader w s) q)) with (place_of w) in He.
        rewrite <- Hll. apply Hc; [by eapply wf_hand|done|].
        destruct (decide (place_of w sh = place_of w (leader w s))); [done|]. by destruct He.
      * rewrite decide_True in Hs by done. destruct (subscribe _ _ _ _); simpl in Hs; simplify_eq.
        constructor; [simpl; eauto|constructor].
      * rewrite decide_True in Hs by done. simplify_eq. repeat constructor; simpl; eauto.
    + simplify_eq. constructor; [|constructor]. simpl. exists t. split; [done|].
      intros Hlt. apply Hp. by rewrite Hlt in Hpl.
Qed.

Lemma orderly_run ops w ev :
  guarded step (fun w o => ok w o /\ orderly w o) init ops -> run step init ops = Ok (w, ev) ->
  wf w /\ coherent w /\ Forall (right_place w) ev.
Proof.
  intros Hg Hr.
  change ev with ([] ++ ev).
  eapply (run_inv_ev step (fun w o => ok w o /\ orderly w o)
    (fun w ev => wf w /\ coherent w /\ Forall (right_place w) ev));
    [|split_and!; [apply wf_init|apply coherent_init|constructor]|exact Hg|exact Hr].
  intros w1 ev1 o w2 e (Hw & Hc & Hf) [Ho Hord] Hs. split_and!.
  - by eapply step_wf.
  - by eapply coherent_step.
  - apply Forall_app. split.
    + eapply List.Forall_impl; [|exact Hf]. intros x Hx. by eapply right_place_later.
    + eapply List.Forall_impl; [|by eapply right_place_now]. intros x Hx. by eapply right_place_later.
Qed.

Lemma default_run ops w ev : sups_default ops -> reaches ops w ev ->
  wf w /\ coherent w /\ Forall (right_place w) ev.
Proof.
  intros Hd [Hg Hr].
  assert (Hgen : forall w0 ev0, wf w0 -> all_default w0 -> Forall (right_place w0) ev0 ->
            guarded step ok w0 ops ->
            forall w' e', run step w0 ops = Ok (w', e') ->
            wf w' /\ all_default w' /\ Forall (right_place w') (ev0 ++ e')).
  { clear Hg Hr. induction Hd as [|o ops Ho Hd IH]; intros w0 ev0 Hw H0 Hf Hg w' e' Hr; simpl in Hr; simplify_eq.
    { by rewrite app_nil_r. }
    destruct Hg as [Hok Hg]. destruct (step w0 o) as [[w1 e1]| |] eqn:Hs; simpl in Hr; try done.
    destruct (run step w1 ops) as [[w2 e2]| |] eqn:Hr2; simpl in Hr; simplify_eq.
    rewrite (assoc_L (++)). apply (IH w1); [by eapply step_wf|by eapply default_step| |done|done].
    apply Forall_app. split.
    - eapply List.Forall_impl; [|exact Hf]. intros x Hx. by eapply right_place_later.
    - eapply List.Forall_impl; [|eapply right_place_now; [exact Hw|by apply default_coherent|exact Hok|exact Hs]].
      intros x Hx. by eapply right_place_later. }
  destruct (Hgen init [] wf_init) with (w' := w) (e' := ev) as (H1 & H2 & H3); try done.
  split_and!; [done|by apply default_coherent|done].
Qed.
