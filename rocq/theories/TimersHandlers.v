(** C14: the nodes of the timer list and the handlers of the owners, in every run. *)
From stdpp Require Import base list gmap.
From Verif Require Import Base TimersModel TimersSpec TimersProofs.

(** Numbers of timers which are yet to be put into the list by a suspended start_timer. *)
Definition kont_ids (k : kont) : list N := match k with KStart id _ => [id] | _ => [] end.
Definition frame_ids (f : frame) : list N := match f with FUpd _ k => kont_ids k | FCancel _ => [] end.
Record HI (s : tstate) (k : list N) : Prop := {
  hi_map : forall id, id ∈ (t_nodes s).*1 -> id ∈ t_map s;
  hi_nodup : NoDup ((t_nodes s).*1 ++ k ++ concat (frame_ids <$> t_stack s));
  hi_next : forall id, id ∈ (t_nodes s).*1 ++ k ++ concat (frame_ids <$> t_stack s) -> (id < t_next s)%N
}.
Lemma insert_node_perm n l : insert_node n l ≡ₚ n :: l.
Proof. induction l as [|m l IH]; cbn; [done|]. case_bool_decide; [done|]. rewrite IH. apply Permutation_swap. Qed.
Lemma start_HI s id iv s' e : HI s [id] -> do_start s id iv = Ok (s', e) -> HI s' [].
Proof.
  intros [A B C] H. injection H as <- <-. assert (P : (insert_node (id, (t_now s + Z.of_N iv)%Z) (t_nodes s)).*1 ≡ₚ id :: (t_nodes s).*1) by (by rewrite insert_node_perm).
  assert (Q : (insert_node (id, (t_now s + Z.of_N iv)%Z) (t_nodes s)).*1 ++ [] ++ concat (frame_ids <$> t_stack s) ≡ₚ (t_nodes s).*1 ++ [id] ++ concat (frame_ids <$> t_stack s)).
  { rewrite P. cbn. by rewrite Permutation_middle. }
  split; cbn [t_nodes t_map t_stack t_next set_nodes set_map].
  - intros x Hx. rewrite P in Hx. apply elem_of_cons in Hx as [->|Hx]; [set_solver|]. apply A in Hx. set_solver.
  - by rewrite Q.
  - intros x Hx. rewrite Q in Hx. by apply C.
Qed.
Lemma cancel_HI s id s' e : HI s [] -> do_cancel s id = Ok (s', e) -> HI s' [].
Proof.
  intros [A B C] H. unfold do_cancel in H. destruct (has_node id (t_nodes s)) eqn:Hn; [|done]. apply has_node_spec, A in Hn. rewrite bool_decide_true in H by done. injection H as <- <-. by split.
Qed.
Lemma kont_HI s k s' e : HI s (kont_ids k) -> run_kont s k = Ok (s', e) -> HI s' [].
Proof. destruct k; cbn; intros A H; [by injection H as <- <-|by eapply start_HI|by eapply cancel_HI]. Qed.
(** No branch of the loop meets a node whose handler is gone. *)
Lemma upd_loop_known now map pre suf : (forall id, id ∈ suf.*1 -> id ∈ map) ->
  (upd_loop now map pre suf).1 = pre ++ suf.
Proof.
  intros H. destruct suf as [|n suf]; cbn; [by rewrite app_nil_r|]. case_bool_decide; [|done]. rewrite bool_decide_true; [done|]. apply H. by left.
Qed.
Lemma update_HI s pre suf k s' e : HI (set_nodes s (pre ++ suf)) (kont_ids k) -> continue_update s pre suf k = Ok (s', e) -> HI s' [].
Proof.
  intros HI0 H. unfold continue_update in H. assert (E : (upd_loop (t_now s) (t_map s) pre suf).1 = pre ++ suf).
  { apply upd_loop_known. intros id Hid. apply (hi_map _ _ HI0). cbn. rewrite fmap_app. set_solver. }
  destruct (upd_loop _ _ _ _) as [nodes [id|]]; cbn in E; subst nodes; [|by eapply kont_HI].
  injection H as <- <-. destruct HI0 as [A B C]. by split.
Qed.
Lemma split_node_eq id l pre suf : split_node id l = Some (pre, suf) -> exists d, l = pre ++ (id, d) :: suf.
Proof.
  revert pre. induction l as [|[i d] l IH]; intros pre H; cbn in H; [done|]. case_bool_decide as Hb; cbn in Hb.
  - injection H as <- <-. subst. by exists d.
  - destruct (split_node id l) as [[a b]|]; [|done]. injection H as <- <-. destruct (IH a eq_refl) as (d' & ->). by exists d'.
Qed.
Lemma step_HI s o s' e : HI s [] -> tstep s o = Ok (s', e) -> HI s' [].
Proof.
  intros HI0 H. destruct o as [dt| |iv|id| |b]; cbn [tstep] in H.
  - injection H as <- <-. destruct HI0 as [A B C]. by split.
  - destruct (t_stack s); [|by injection H as <- <-]. eapply update_HI; [|exact H]. destruct HI0 as [A B C]. by split.
  - assert (Hb : HI (bump s) [t_next s]).
    { destruct HI0 as [A B C]. split; cbn [bump t_nodes t_map t_stack t_next].
      - done.
      - cbn. rewrite <- Permutation_middle. apply NoDup_cons. split; [|done]. intros Hx. apply C in Hx. lia.
      - intros x Hx. cbn in Hx. rewrite <- Permutation_middle in Hx. apply elem_of_cons in Hx as [->|Hx]; [lia|]. apply C in Hx. lia. }
    destruct (t_icpt s); [|by eapply start_HI]. eapply update_HI; [|exact H]. destruct Hb as [A B C]. by split.
  - destruct (bool_decide _); [|done]. destruct (t_icpt s); [|by eapply cancel_HI]. eapply update_HI; [|exact H]. destruct HI0 as [A B C]. by split.
  - destruct (t_stack s) as [|[id k|id] st] eqn:Hst; [by injection H as <- <-|..].
    + destruct (bool_decide _); [|done]. destruct (split_node _ _) as [[pre suf]|] eqn:Hsp; [|done]. apply split_node_eq in Hsp as (d & Hn).
      eapply update_HI; [|exact H]. destruct HI0 as [A B C]. rewrite Hst, Hn in *. cbn in B, C. rewrite fmap_app in A, B, C. cbn in A, B, C. rewrite <- app_assoc in B, C. cbn in B, C. rewrite <- Permutation_middle in B. apply NoDup_cons in B as [B1 B2].
      split; cbn; rewrite fmap_app.
      * intros x Hx. assert (x <> id) by (intros ->; apply B1; set_solver). assert (x ∈ t_map s) by (apply A; set_solver). set_solver.
      * by rewrite <- app_assoc.
      * intros x Hx. apply C. set_solver.
    + destruct (bool_decide _); [|done]. destruct (has_node _ _) eqn:Hn; [|done]. injection H as <- <-. destruct HI0 as [A B C]. rewrite Hst in *. cbn in B, C.
      apply NoDup_app in B as (B1 & B2 & B3). assert (Hi : forall x, x ∈ (erase_node id (t_nodes s)).*1 <-> x ∈ (t_nodes s).*1 /\ x <> id) by (intros x; by apply erase_node_ids).
      split; cbn.
      * intros x [Hx ?]%Hi. apply A in Hx. set_solver.
      * apply NoDup_app. split; [|split; [|done]]. 
        -- clear -B1. induction (t_nodes s) as [|m l IH]; cbn; [constructor|]. cbn in B1. apply NoDup_cons in B1 as [X Y]. case_bool_decide; [done|]. cbn. apply NoDup_cons. split; [|by apply IH].
           intros Hx. apply X. by apply erase_node_ids in Hx as [? _].
        -- intros x [Hx ?]%Hi. by apply B2.
      * intros x Hx. apply C. apply elem_of_app in Hx as [[Hx ?]%Hi|Hx]; set_solver.
  - destruct (t_stack s) eqn:Hst; injection H as <- <-; [|done]. destruct HI0 as [A B C]. rewrite Hst in *. split; cbn; by rewrite ?Hst.
Qed.
Lemma run_HI ops : forall s s' e, HI s [] -> run tstep s ops = Ok (s', e) -> HI s' [].
Proof.
  induction ops as [|o ops IH]; intros s s' e Hn H; cbn [run] in H; [by injection H as <- <-|].
  destruct (tstep s o) as [[s1 e1]| |] eqn:Hs; [|done..]. cbn in H. destruct (run tstep s1 ops) as [[s2 e2]| |] eqn:Hr; [|done..]. cbn in H. injection H as <- <-.
  eapply IH; [|exact Hr]. by eapply step_HI.
Qed.
Lemma timers_known ops s ev n : run tstep tinit ops = Ok (s, ev) -> n ∈ t_nodes s -> n.1 ∈ t_map s.
Proof.
  intros H Hn. assert (A : HI s []). { eapply run_HI; [|exact H]. split; cbn; [set_solver|constructor|set_solver]. }
  apply (hi_map _ _ A). by apply elem_of_list_fmap_1.
Qed.
Lemma timers_distinct ops s ev : run tstep tinit ops = Ok (s, ev) -> NoDup (t_nodes s).*1.
Proof.
  intros H. assert (A : HI s []). { eapply run_HI; [|exact H]. split; cbn; [set_solver|constructor|set_solver]. }
  destruct A as [_ B _]. by apply NoDup_app in B as [B _].
Qed.
