(** What a step of the name service does. *)
From stdpp Require Import base list gmap strings.
From Verif Require Import Base Prog RegistryModel ActorModel ActorSpec ActorMoves ActorReach ActorSteps NetModel NetSpec NetViews NetInv NamesModel NamesSpec NamesLocal NamesEvents NamesFlight.
Open Scope N_scope.

Section views.
Context (nm : N -> string) (cfg : N -> plug -> list uact) (ra : N) (unl : N -> bool).
Context {HI : Inj eq eq nm}.
Notation asks := (asks nm).
Notation post := (post nm).

(** The messages of several events. *)
Fixpoint asked (n : N) (pid : N -> N) (e : list aev) : list rop :=
  match e with [] => [] | x :: r => match asks n pid x with Some m => [m] | None => [] end ++ asked n (keeps pid x) r end.
Lemma posts n e y : let y' := foldl post y ((fun x => (n, x)) <$> e) in
  y_net y' = y_net y /\ y_reg y' = y_reg y /\ y_from y' = y_from y /\ (forall k, y_to y' k = if decide (k = n) then y_to y n ++ asked n (y_pid y n) e else y_to y k) /\
  (forall k, y_pid y' k = if decide (k = n) then foldl keeps (y_pid y n) e else y_pid y k).
Proof.
  revert y. induction e as [|x e IH]; intros y; cbn -[NamesModel.post].
  - split_and!; try done; intros k; case_decide; subst; by rewrite ?app_nil_r.
  - destruct (IH (post y (n, x))) as (E1 & E2 & E3 & E4 & E5). split_and!; try done; intros k; [rewrite E4|rewrite E5; cbn; unfold upd; rewrite bool_decide_true by done; case_decide; [done|by rewrite bool_decide_false]]. cbn. unfold upd. case_decide; [subst|].
    + rewrite bool_decide_true by done. destruct (asks n (y_pid y n) x); [rewrite bool_decide_true by done; by rewrite <- (assoc_L (++))|done].
    + destruct (asks n (y_pid y n) x); [by rewrite bool_decide_false|done].
Qed.
Lemma asked_in n pid e m : m ∈ asked n pid e -> exists x pid', x ∈ e /\ asks n pid' x = Some m.
Proof.
  revert pid. induction e as [|x e IH]; intros pid; cbn; [by intros ?%elem_of_nil|]. rewrite elem_of_app. intros [H|H].
  - destruct (asks n pid x) as [m'|] eqn:E; [|by apply elem_of_nil in H]. apply elem_of_list_singleton in H as ->. exists x, pid. split; [by left|done].
  - apply IH in H as (z & pid' & Hz & Hm). exists z, pid'. split; [by right|done].
Qed.
Lemma in_asked n pid e x m : x ∈ e -> (forall pid', asks n pid' x = Some m) -> m ∈ asked n pid e.
Proof.
  intros Hx Hm. revert pid. induction e as [|z e IH]; intros pid; [by apply elem_of_nil in Hx|]. cbn. rewrite elem_of_app. apply elem_of_cons in Hx as [<-|Hx]; [left|right; by apply IH].
  rewrite Hm. by left.
Qed.
(** How often it is said that a name is given back. *)
Definition is_back (m : N) (x : rop) : bool := match x with DeregService k => bool_decide (k = nm m) | _ => false end.
Definition backs (m : N) (l : list rop) : nat := length (List.filter (is_back m) l).
Definition is_ok (m : N) (x : rout) : bool := match x with RegOk q => bool_decide (rr_name q = nm m) | _ => false end.
Definition oks (m : N) (l : list rout) : nat := length (List.filter (is_ok m) l).
Lemma backs_app m l1 l2 : backs m (l1 ++ l2) = (backs m l1 + backs m l2)%nat.
Proof. unfold backs. by rewrite List.filter_app, app_length. Qed.
Lemma oks_app m l1 l2 : oks m (l1 ++ l2) = (oks m l1 + oks m l2)%nat.
Proof. unfold oks. by rewrite List.filter_app, app_length. Qed.
Lemma backs_asked m n pid e : backs m (asked n pid e) = length (filter (eq (EvDereg m)) e).
Proof.
  revert pid. induction e as [|x e IH]; intros pid; [done|]. cbn [asked]. rewrite backs_app, IH, filter_cons. destruct x; try (rewrite decide_False by done; done).
  cbn. unfold backs. cbn. destruct (decide (EvDereg m = EvDereg n0)) as [E|E].
  - injection E as <-. by rewrite bool_decide_true.
  - rewrite bool_decide_false; [done|]. intros ?%(inj nm). congruence.
Qed.
Lemma oks_zero m l : oks m l = 0%nat <-> forall q, RegOk q ∈ l -> rr_name q <> nm m.
Proof.
  unfold oks. rewrite length_zero_iff_nil. split.
  - intros E q Hq Hn. assert (Hf : RegOk q ∈ List.filter (is_ok m) l) by (apply elem_of_list_In, filter_In; split; [by apply elem_of_list_In|]; cbn; by rewrite bool_decide_true).
    rewrite E in Hf. by apply elem_of_nil in Hf.
  - intros H. destruct (List.filter (is_ok m) l) as [|x k] eqn:E; [done|]. assert (Hf : x ∈ List.filter (is_ok m) l) by (rewrite E; by left).
    apply elem_of_list_In, filter_In in Hf as [Hx Hb]. apply elem_of_list_In in Hx. destruct x; try done. cbn in Hb. apply bool_decide_eq_true in Hb. by apply H in Hx.
Qed.
Lemma oks_pos m l : (0 < oks m l)%nat <-> exists q, RegOk q ∈ l /\ rr_name q = nm m.
Proof.
  split.
  - unfold oks. destruct (List.filter (is_ok m) l) as [|x k] eqn:E; cbn; [lia|]. intros _. assert (Hf : x ∈ List.filter (is_ok m) l) by (rewrite E; by left).
    apply elem_of_list_In, filter_In in Hf as [Hx Hb]. apply elem_of_list_In in Hx. destruct x; try done. cbn in Hb. apply bool_decide_eq_true in Hb. eauto.
  - intros (q & Hq & Hn). destruct (oks m l) eqn:E; [|lia]. apply (proj1 (oks_zero m l)) in Hq; done.
Qed.
Lemma backs_pos m l : (0 < backs m l)%nat <-> DeregService (nm m) ∈ l.
Proof.
  unfold backs. split.
  - destruct (List.filter (is_back m) l) as [|x k] eqn:E; cbn; [lia|]. intros _. assert (Hf : x ∈ List.filter (is_back m) l) by (rewrite E; by left).
    apply elem_of_list_In, filter_In in Hf as [Hx Hb]. apply elem_of_list_In in Hx. destruct x; try done. cbn in Hb. apply bool_decide_eq_true in Hb. by subst.
  - intros Hd. assert (Hf : DeregService (nm m) ∈ List.filter (is_back m) l) by (apply elem_of_list_In, filter_In; split; [by apply elem_of_list_In|]; cbn; by rewrite bool_decide_true).
    destruct (List.filter (is_back m) l); [by apply elem_of_nil in Hf|cbn; lia].
Qed.

(** Answers of the registry are sent. *)
Lemma emits out y : let y' := foldl emit_out y out in
  y_net y' = y_net y /\ y_reg y' = y_reg y /\ y_to y' = y_to y /\ (forall k, y_from y' k = y_from y k ++ filter (fun r => receiver r = k) out) /\ y_pid y' = y_pid y.
Proof.
  revert y. induction out as [|r out IH]; intros y; cbn -[emit_out].
  - split_and!; try done. intros k. by rewrite app_nil_r.
  - destruct (IH (emit_out y r)) as (E1 & E2 & E3 & E4 & E5). split_and!; try done. intros k. rewrite E4. cbn. unfold upd. case_bool_decide as H; case_decide as H2; try congruence; [|done].
    subst. by rewrite <- (assoc_L (++)).
Qed.

(** ** The cases *)
Notation S y n := (sto (y_net y) n).
Notation T y n := (trace (y_net y) n).
(** An actor does something, after it has taken an answer of the registry or by itself. *)
Record acts (y : names) (n : N) (o : aop) (r0 : option rout) (y' : names) (s' : astore) (e : list aev) : Prop := Acts {
  ac_in : is_Some (w_act (y_net y) !! n);
  ac_step : astep (cfg n) ra (unl n) (S y n) o = Ok (s', e);
  ac_sto : forall k, S y' k = if decide (k = n) then s' else S y k;
  ac_trace : forall k, T y' k = if decide (k = n) then T y n ++ e else T y k;
  ac_reg : y_reg y' = y_reg y;
  ac_to : forall k, y_to y' k = if decide (k = n) then y_to y n ++ asked n (y_pid y n) e else y_to y k;
  ac_from : match r0 with
    | Some r => exists l, y_from y n = r :: l /\ forall k, y_from y' k = if decide (k = n) then l else y_from y k
    | None => forall k, y_from y' k = y_from y k end;
  ac_op : match r0 with
    | Some r => o = OResp (number r) (payload r) /\ x_st (S y n) <> AShutDown /\ exists q, x_pend (S y n) !! number r = Some q /\ link_query q = false
    | None => forall q r, answers (S y n) o q r -> link_query q = true \/ o = OLate end;
  ac_pid : forall k, y_pid y' k = if decide (k = n) then foldl keeps (y_pid y n) e else y_pid y k
}.
(** Nothing happens but that a message is gone. *)
Record idle (y y' : names) : Prop := Idle {
  id_sto : forall k, S y' k = S y k;
  id_trace : forall k, T y' k = T y k;
  id_reg : y_reg y' = y_reg y;
  id_pid : y_pid y' = y_pid y
}.
Inductive yview (y : names) : names -> list yev -> Prop :=
| yv_act n o r0 y' s' e : acts y n o r0 y' s' e -> yview y y' ((fun '(n, x) => YAct n x) <$> ((fun x => (n, x)) <$> e))
| yv_idle y' : idle y y' -> (forall k, y_to y' k = y_to y k) -> (forall k, y_from y' k = y_from y k) -> yview y y' []
| yv_lost p m l y' : idle y y' -> serves ra (y_net y) = false -> y_to y p = m :: l -> (forall k, y_to y' k = if decide (k = p) then l else y_to y k) -> (forall k, y_from y' k = y_from y k) -> yview y y' []
| yv_serve p m l y' r out : y_net y' = y_net y -> serves ra (y_net y) = true -> y_to y p = m :: l -> rstep (y_reg y) m = Ok (r, out) -> y_reg y' = r ->
    (forall k, y_to y' k = if decide (k = p) then l else y_to y k) -> (forall k, y_from y' k = y_from y k ++ filter (fun x => receiver x = k) out) -> y_pid y' = y_pid y -> yview y y' []
| yv_drop n r l y' : idle y y' -> open (y_net y) n (number r) = false -> y_from y n = r :: l -> (forall k, y_to y' k = y_to y k) -> (forall k, y_from y' k = if decide (k = n) then l else y_from y k) -> yview y y' [YDrop n r].

Lemma nstep_dom w o w' e k : nstep cfg ra unl w o = Ok (w', e) -> is_Some (w_act w !! k) -> is_Some (w_act w' !! k).
Proof.
  intros Hs%nstep_view Hk. destruct Hs; cbn; try done; destruct (decide (k = n)) as [->|?]; rewrite ?lookup_insert, ?lookup_insert_ne by done; eauto.
Qed.
Lemma post_net e y : y_net (foldl post y e) = y_net y.
Proof. revert y. induction e as [|[n x] e IH]; intros y; [done|]. cbn [foldl]. rewrite IH. done. Qed.
Lemma ystep_dom y o y' ev k : ystep nm cfg ra unl y o = Ok (y', ev) -> is_Some (w_act (y_net y) !! k) -> is_Some (w_act (y_net y') !! k).
Proof.
  assert (HN : forall y o y' ev, y_nstep nm cfg ra unl y o = Ok (y', ev) -> is_Some (w_act (y_net y) !! k) -> is_Some (w_act (y_net y') !! k)).
  { clear. intros y o y' ev. unfold y_nstep. destruct (nstep cfg ra unl (y_net y) o) as [[w e]| |] eqn:E; cbn [rbind]; try done. intros [= <- <-] H. rewrite post_net. by eapply nstep_dom. }
  destruct o as [o|p|n]; cbn [ystep].
  - destruct (allowed o); [apply HN|by intros [= <- <-]].
  - destruct (y_to y p) as [|m l]; [by intros [= <- <-]|]. destruct (serves ra (y_net y)); [|by intros [= <- <-]].
    destruct (rstep (y_reg y) m) as [[r out]| |]; cbn [rbind]; try done. intros [= <- <-].
    pose proof (emits out (Names (y_net y) r (upd (y_to y) p l) (y_from y) (y_pid y))) as (E1 & _). by rewrite E1.
  - destruct (y_from y n) as [|r l]; [by intros [= <- <-]|]. destruct (open (y_net y) n (number r)); [apply (HN (Names (y_net y) (y_reg y) (y_to y) (upd (y_from y) n l) (y_pid y)))|by intros [= <- <-]].
Qed.
Lemma ystep_view y o y' ev : fl (y_net y) -> (forall n r l q, y_from y n = r :: l -> x_pend (S y n) !! number r = Some q -> link_query q = false) ->
  ystep nm cfg ra unl y o = Ok (y', ev) -> yview y y' ev /\ fl (y_net y').
Proof.
  intros HF Hfr. destruct o as [o|p|n]; cbn [ystep].
  - destruct (allowed o) eqn:Ha; [|intros [= <- <-]; split; [by apply yv_idle|done]]. unfold y_nstep. destruct (nstep cfg ra unl (y_net y) o) as [[w e]| |] eqn:E; cbn [rbind]; try done. intros [= <- <-].
    pose proof (fl_step _ _ _ _ _ _ _ HF E) as HF'. apply nstep_view in E.
    assert (Hp : forall n e, let y' := foldl post (set_net y w) ((fun x => (n, x)) <$> e) in y_net y' = w /\ y_reg y' = y_reg y /\ y_from y' = y_from y /\ (forall k, y_to y' k = if decide (k = n) then y_to y n ++ asked n (y_pid y n) e else y_to y k) /\ (forall k, y_pid y' k = if decide (k = n) then foldl keeps (y_pid y n) e else y_pid y k)).
    { clear. intros n e. exact (posts n e (set_net y w)). }
    destruct E as [o|n Hn|n o s' e Hn Hpl Hs|p n m l Hm Hn|p n m l s' e Hm Hn Hs].
    + split; [|done]. by apply yv_idle.
    + split; [|done]. apply yv_idle; [split; cbn; try done; intros k; [by apply sto_new|by apply trace_new]|done|done].
    + destruct (Hp n e) as (E1 & E2 & E3 & E4 & E5). split; [|by rewrite E1]. eapply (yv_act _ n o None). split; try done; try (intros k; rewrite E1); rewrite ?sto_after, ?trace_after; try done.
      * intros k. by rewrite E3.
      * intros q r [(id & -> & _)|(-> & _ & _)]; [done|by right].
    + split; [|done]. by apply yv_idle.
    + destruct (Hp n e) as (E1 & E2 & E3 & E4 & E5). split; [|by rewrite E1]. eapply (yv_act _ n _ None). split; try exact Hs; try done; try (intros k; rewrite E1); rewrite ?sto_after, ?trace_after; try done.
      * intros k. by rewrite E3.
      * intros q r [(id & Ho & Hq)|(Ho & _ & _)]; [left; by apply (fl_resp _ _ _ _ _ _ _ _ HF Hm Ho Hq)|by right].
  - destruct (y_to y p) as [|m l] eqn:Et; [intros [= <- <-]; split; [by apply yv_idle|done]|].
    assert (Hu : forall k, upd (y_to y) p l k = if decide (k = p) then l else y_to y k) by (intros k; unfold upd; case_bool_decide; case_decide; congruence).
    destruct (serves ra (y_net y)) eqn:Hsv.
    + destruct (rstep (y_reg y) m) as [[r out]| |] eqn:Er; cbn [rbind]; try done. intros [= <- <-].
      destruct (emits out (Names (y_net y) r (upd (y_to y) p l) (y_from y) (y_pid y))) as (E1 & E2 & E3 & E4 & E5). cbn [y_net y_reg y_to y_from y_pid] in *. split; [|by rewrite E1].
      eapply yv_serve; try done. intros k. by rewrite E3.
    + intros [= <- <-]. split; [|done]. by eapply yv_lost.
  - destruct (y_from y n) as [|r l] eqn:Et; [intros [= <- <-]; split; [by apply yv_idle|done]|].
    assert (Hu : forall k, upd (y_from y) n l k = if decide (k = n) then l else y_from y k) by (intros k; unfold upd; case_bool_decide; case_decide; congruence).
    destruct (open (y_net y) n (number r)) eqn:Ho.
    + assert (Hop : exists q nd, w_act (y_net y) !! n = Some nd /\ x_pend (S y n) !! number r = Some q /\ x_st (S y n) <> AShutDown).
      { unfold open in Ho. unfold sto. destruct (w_act (y_net y) !! n) as [nd|]; [|done]. apply andb_true_iff in Ho as [[q Hq]%bool_decide_eq_true Hst]. apply negb_true_iff, bool_decide_eq_false in Hst. eauto. }
      destruct Hop as (q & nd & Hn & Hq & Hst). pose proof (Hfr _ _ _ _ Et Hq) as Hl.
      unfold y_nstep. cbn [y_net]. destruct (nstep cfg ra unl (y_net y) (NLocal n (OResp (number r) (payload r)))) as [[w e]| |] eqn:E; cbn [rbind]; try done. intros [= <- <-].
      pose proof (fl_step _ _ _ _ _ _ _ HF E) as HF'. cbn [nstep] in E. rewrite Hn in E. assert (Es : S y n = w_s nd) by (unfold sto; by rewrite Hn).
      assert (Hpl : plain (w_s nd) (OResp (number r) (payload r)) = true) by (cbn; rewrite <- Es, Hq; by destruct q). rewrite Hpl in E.
      destruct (nact_view _ _ _ _ _ _ _ _ _ Hn E) as (s' & e' & Hs & -> & ->).
      set (y1 := Names (y_net y) (y_reg y) (y_to y) (upd (y_from y) n l) (y_pid y)).
      pose proof (posts n e' (set_net y1 (after (y_net y) n s' e'))) as (E1 & E2 & E3 & E4 & E5).
      change (y_net (set_net y1 (after (y_net y) n s' e'))) with (after (y_net y) n s' e') in E1. split; [|by rewrite E1]. eapply (yv_act _ n _ (Some r)).
      split; try exact Hs; try done; try (intros k; rewrite E1, ?sto_after, ?trace_after; done); try (by eexists).
      * exists l. split; [done|]. intros k. rewrite E3. apply Hu.
      * split_and!; [done|done|]. by exists q.
    + intros [= <- <-]. split; [|done]. by eapply yv_drop.
Qed.
End views.
