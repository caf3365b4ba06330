(** Answers to link and unlink requests are under way only to those who have asked: no
    rule of use is needed for this. *)
From stdpp Require Import base list gmap.
From Verif Require Import Base Prog ActorModel ActorSpec ActorMoves ActorReach ActorSteps NetModel NetSpec NetViews NetInv NamesLocal NamesEvents.
Open Scope N_scope.

(** ** One actor *)
Lemma reach_pend0 D s ev : reach D s ev -> 0 < x_next s /\ forall id q, (id, q) ∈ reqs ev -> 0 < id.
Proof.
  apply (reach_inv D (fun s ev => 0 < x_next s /\ forall id q, (id, q) ∈ reqs ev -> 0 < id)); [split; [done|by intros ? ? ?%elem_of_nil]|].
  clear. intros s ev e s' _ [H1 H2] Hm. rewrite reqs_app.
  assert (HO : reqs e = [] -> x_next s' = x_next s -> 0 < x_next s' /\ forall id q, (id, q) ∈ reqs ev ++ reqs e -> 0 < id).
  { intros -> ->. rewrite app_nil_r. done. }
  assert (HN : forall q, reqs e = [(x_next s, q)] -> x_next s' = x_next s + 1 -> 0 < x_next s' /\ forall id q, (id, q) ∈ reqs ev ++ reqs e -> 0 < id).
  { intros q -> ->. split; [lia|]. intros id q'. rewrite elem_of_app, elem_of_list_singleton. intros [H|[= -> _]]; [by eapply H2|done]. }
  destruct Hm; try (by eapply HN); try (by apply HO; [apply reqs_none; repeat first [apply Forall_app_2|case_match|constructor]|]).
  - destruct d; by eapply HN.
  - apply HO; [|done]. apply reqs_none, Forall_forall. intros x Hx. by apply H3 in Hx as (n & -> & _).
  - destruct b; by apply HO.
  - destruct b; by apply HO.
Qed.
Definition inv_ans (s : astore) (ev : list aev) : Prop :=
  (forall c r x, EvLinkAns c r x ∈ ev -> exists p, EvLinkReq c r p ∈ ev) /\ (forall c r, x_cl s !! c = Some (CPending r) -> exists p, EvLinkReq c r p ∈ ev).
Lemma inv_ans_same s s' ev e : inv_ans s ev -> (forall c r x, EvLinkAns c r x ∉ e) -> (forall c r, x_cl s' !! c = Some (CPending r) -> x_cl s !! c = Some (CPending r)) -> inv_ans s' (ev ++ e).
Proof.
  intros [H1 H2] He Hc. split.
  - intros c r x. rewrite elem_of_app. intros [H|H]; [apply H1 in H as [p H]; exists p; apply elem_of_app; by left|by apply He in H].
  - intros c r H%Hc%H2. destruct H as [p H]. exists p. apply elem_of_app. by left.
Qed.
Lemma reach_ans D s ev : reach D s ev -> inv_ans s ev.
Proof.
  apply (reach_inv D inv_ans); [split; [by intros ? ? ? ?%elem_of_nil|done]|]. clear. intros s ev e s' _ HI Hm.
  assert (HQ : forall c r o l, e = EvLinkReq c r o :: l -> (forall y, y ∈ l -> exists z, y = EvLinkAns c r z) -> (forall c' r', x_cl s' !! c' = Some (CPending r') -> x_cl s !! c' = Some (CPending r') \/ c' = c /\ r' = r) -> inv_ans s' (ev ++ e)).
  { intros c r o l -> Hl Hc. destruct HI as [H1 H2]. split.
    - intros c' r' x'. rewrite elem_of_app. intros [H|H]; [apply H1 in H as [p H]; exists p; apply elem_of_app; by left|].
      apply elem_of_cons in H as [?|H]; [done|]. apply Hl in H as [z [= -> -> ->]]. exists o. apply elem_of_app. right. by left.
    - intros c' r' [H|[-> ->]]%Hc; [apply H2 in H as [p H]; exists p; apply elem_of_app; by left|]. exists o. apply elem_of_app. right. by left. }
  assert (HB : forall c r, e = [EvLinkAns c r LOk] -> x_cl s !! c = Some (CPending r) -> x_cl s' = <[c := COperational]> (x_cl s) -> inv_ans s' (ev ++ e)).
  { intros c r -> H0 E. destruct HI as [H1 H2]. split.
    - intros c' r' x'. rewrite elem_of_app, elem_of_list_singleton. intros [H3|[= -> -> ->]].
      + apply H1 in H3 as [p H3]; exists p; apply elem_of_app; by left.
      + apply H2 in H0 as [p Hp]. exists p. apply elem_of_app. by left.
    - intros c' r'. rewrite E, lookup_insert_Some. intros [[_ ?]|[_ H3]]; [done|]. apply H2 in H3 as [p H3]. exists p. apply elem_of_app. by left. }
  destruct Hm; try (by apply (HB c r)); clear HB; try (eapply (HQ c r); [reflexivity| |cbn; intros c' r'; try (rewrite lookup_insert_Some; intros [[<- ?]|[_ ?]]); naive_solver]; cbn; set_solver).
  all: try (eapply (inv_ans_same s); [exact HI|intros ? ? ? Hx; try (by repeat (apply elem_of_cons in Hx as [Hx|Hx]; [done|]); apply elem_of_nil in Hx)|try done]).
  all: try (by intros c' r'; cbn; rewrite ?lookup_insert_Some, ?lookup_delete_Some; naive_solver).
  all: try (destruct b; done).
  - destruct d; apply elem_of_list_singleton in Hx; done.
  - apply elem_of_cons in Hx as [Hx|Hx]; [done|]. case_match; [by apply elem_of_list_singleton in Hx|by apply elem_of_nil in Hx].
  - by apply H1 in Hx as (? & ? & _).
  - apply elem_of_app in Hx as [Hx|Hx]; [case_match; [by apply elem_of_list_singleton in Hx|by apply elem_of_nil in Hx]|by apply elem_of_list_singleton in Hx].
Qed.

(** ** The net: what a step does *)
Lemma sto_take w p n m l k : sto (take_msg w p n m l) k = sto w k.
Proof. done. Qed.
Lemma trace_take w p n m l k : trace (take_msg w p n m l) k = trace w k.
Proof. done. Qed.
Section net.
Context (cfg : N -> plug -> list uact) (ra : N) (unl : N -> bool).
Notation nstep := (nstep cfg ra unl).
Inductive nview (w : net) : nop -> net -> list (N * aev) -> Prop :=
| v_same o : nview w o w []
| v_new n : w_act w !! n = None -> nview w (NNew n) (Net (<[n := WNode ainit []]> (w_act w)) (w_ch w) (w_uid w)) []
| v_local n o s' e : is_Some (w_act w !! n) -> plain (sto w n) o = true -> astep (cfg n) ra (unl n) (sto w n) o = Ok (s', e) ->
    nview w (NLocal n o) (after w n s' e) ((fun x => (n, x)) <$> e)
| v_lost p n m l : w_ch w p n = m :: l -> w_act w !! n = None -> nview w (NDeliver p n) (take_msg w p n m l) []
| v_take p n m l s' e : w_ch w p n = m :: l -> is_Some (w_act w !! n) -> astep (cfg n) ra (unl n) (sto w n) (receive p m) = Ok (s', e) ->
    nview w (NDeliver p n) (after (take_msg w p n m l) n s' e) ((fun x => (n, x)) <$> e).
Lemma nact_view w n nd o w' e : w_act w !! n = Some nd -> nact cfg ra unl w n nd o = Ok (w', e) -> exists s' e', astep (cfg n) ra (unl n) (sto w n) o = Ok (s', e') /\ w' = after w n s' e' /\ e = (fun x => (n, x)) <$> e'.
Proof.
  intros Hn. unfold nact. assert (Es : sto w n = w_s nd) by (unfold sto; by rewrite Hn). rewrite Es. destruct (astep _ _ _ _ _) as [[s' e']| |] eqn:E; cbn [rbind]; try done. intros [= <- <-].
  exists s', e'. split_and!; [done| |done]. unfold after, trace. by rewrite Hn.
Qed.
Lemma nstep_view w o w' e : nstep w o = Ok (w', e) -> nview w o w' e.
Proof.
  destruct o as [n|n o|p n]; cbn [NetModel.nstep].
  - case_bool_decide as H; intros [= <- <-]; [constructor|]. constructor. by apply eq_None_not_Some.
  - destruct (w_act w !! n) as [nd|] eqn:Hn; [|intros [= <- <-]; constructor]. assert (Es : sto w n = w_s nd) by (unfold sto; by rewrite Hn). rewrite <- Es.
    destruct (plain (sto w n) o) eqn:Hp; [|intros [= <- <-]; constructor]. intros (s' & e' & H1 & -> & ->)%(nact_view _ _ _ _ _ _ Hn). constructor; [by eexists|done|done].
  - destruct (w_ch w p n) as [|m l] eqn:Hc; [intros [= <- <-]; constructor|]. destruct (w_act w !! n) as [nd|] eqn:Hn; [|intros [= <- <-]; by constructor].
    intros (s' & e' & H1 & -> & ->)%(nact_view (take_msg w p n m l) _ _ _ _ _ Hn). econstructor; [done|by eexists|done].
Qed.
Lemma sto_new w n k : w_act w !! n = None -> sto (Net (<[n := WNode ainit []]> (w_act w)) (w_ch w) (w_uid w)) k = sto w k.
Proof. intros H. unfold sto. cbn. destruct (decide (k = n)) as [->|?]; [by rewrite lookup_insert, H|by rewrite lookup_insert_ne]. Qed.
Lemma trace_new w n k : w_act w !! n = None -> trace (Net (<[n := WNode ainit []]> (w_act w)) (w_ch w) (w_uid w)) k = trace w k.
Proof. intros H. unfold trace. cbn. destruct (decide (k = n)) as [->|?]; [by rewrite lookup_insert, H|by rewrite lookup_insert_ne]. Qed.

(** ** The invariant *)
Record fl (w : net) : Prop := Fl {
  fl_reach : forall n, reach False (sto w n) (trace w n);
  fl_req : forall c s id p, WLinkReq id p ∈ w_ch w c s -> EvLink s p id ∈ trace w c;
  fl_got : forall c s r p, EvLinkReq c r p ∈ trace w s -> EvLink s p r ∈ trace w c;
  fl_ans : forall c s id x, WLinkAns id x ∈ w_ch w s c -> exists p, EvLink s p id ∈ trace w c;
  fl_unl : forall c s k, WUnlinkReq k ∈ w_ch w s c -> EvUnlinkReq c k ∈ trace w s;
  fl_uid : forall c s, w_uid w c s = 0 \/ EvUnlinkReq c (w_uid w c s) ∈ trace w s;
  fl_rep : forall c s k, WUnlinkRep k ∈ w_ch w c s -> k = 0 \/ EvUnlinkReq c k ∈ trace w s
}.
Lemma fl_take w p n m l : w_ch w p n = m :: l -> fl w -> fl (take_msg w p n m l).
Proof.
  intros E [F0 F1 F2 F3 F4 F5 F6].
  assert (Hch : forall a b x, x ∈ w_ch (take_msg w p n m l) a b -> x ∈ w_ch w a b).
  { intros a b x. cbn. unfold upd2. case_bool_decide as Hb; [|done]. destruct Hb as [-> ->]. rewrite E. by right. }
  split; try done; try (intros; eauto; fail).
  intros c s. cbn [w_uid take_msg]. destruct m; try apply F5. unfold upd2. case_bool_decide as Hb; [|apply F5]. destruct Hb as [-> ->]. right. apply F4. rewrite E. by left.
Qed.
Lemma fl_after w n o s' e : fl w -> astep (cfg n) ra (unl n) (sto w n) o = Ok (s', e) -> (forall c r p, o = OLinkReq c r p -> EvLink n p r ∈ trace w c) -> fl (after w n s' e).
Proof.
  intros [F0 F1 F2 F3 F4 F5 F6] Hs Hreq. destruct (step_chain _ _ _ _ _ _ _ _ (F0 n) Hs) as [HR _]. pose proof (step_events _ _ _ _ _ _ _ Hs) as Hev. rewrite Forall_forall in Hev.
  assert (Hnew : forall x, x ∈ e -> x ∈ trace (after w n s' e) n) by (intros x Hx; rewrite trace_after, decide_True by done; apply elem_of_app; by right).
  assert (Hgot : forall c r p, EvLinkReq c r p ∈ trace w n ++ e -> EvLink n p r ∈ trace w c).
  { intros c r p. rewrite elem_of_app. intros [H|H]; [by apply F2|]. apply Hev in H. cbn in H. by apply Hreq. }
  assert (Hold : forall k x, x ∈ trace w k -> x ∈ trace (after w n s' e) k) by (intros; by apply trace_grows).
  assert (Hch : forall a b x, x ∈ w_ch (after w n s' e) a b -> x ∈ w_ch w a b \/ a = n /\ exists y, y ∈ e /\ wire (w_uid w n) y = Some (b, x)).
  { intros a b x. cbn. case_bool_decide; [|by left]. subst. rewrite elem_of_app. intros [?|?]; [by left|right]. split; [done|]. by apply sent_elem. }
  split.
  - intros k. rewrite sto_after, trace_after. case_decide; [done|apply F0].
  - intros c s id p [H|[-> (y & Hy & Hw)]]%Hch; [auto|]. destruct y; cbn in Hw; try done. injection Hw as -> -> ->. auto.
  - intros c s r p. rewrite trace_after. case_decide; [subst|by intros ?%F2%Hold]. intros H%Hgot. auto.
  - intros c s id x [H|[-> (y & Hy & Hw)]]%Hch; [apply F3 in H as [p H]; eauto|]. destruct y; cbn in Hw; try done. injection Hw as -> -> ->.
    destruct (reach_ans _ _ _ HR) as [HA _]. destruct (HA c id x) as [p Hp]; [apply elem_of_app; by right|]. exists p. by apply Hold, Hgot.
  - intros c s k [H|[-> (y & Hy & Hw)]]%Hch; [auto|]. destruct y; cbn in Hw; try done. injection Hw as -> ->. auto.
  - intros c s. cbn [w_uid after]. destruct (F5 c s); [by left|right; auto].
  - intros c s k [H|[-> (y & Hy & Hw)]]%Hch; [destruct (F6 _ _ _ H); [by left|right; auto]|]. destruct y; cbn in Hw; try done. injection Hw as -> <-. destruct (F5 n s); [by left|right; auto].
Qed.
Lemma fl_step w o w' e : fl w -> nstep w o = Ok (w', e) -> fl w'.
Proof.
  intros HF Hs%nstep_view. destruct Hs as [o|n Hn|n o s' e Hn Hp Hs|p n m l Hm Hn|p n m l s' e Hm Hn Hs].
  - done.
  - destruct HF as [F0 F1 F2 F3 F4 F5 F6]. split; intros *; rewrite ?sto_new, ?trace_new by done; [apply F0|apply F1|apply F2|apply F3|apply F4|apply F5|apply F6].
  - eapply fl_after; [done|exact Hs|]. intros c r p ->. done.
  - by apply fl_take.
  - eapply fl_after; [by apply fl_take|rewrite sto_take; exact Hs|]. intros c r x E. destruct m; cbn in E; try done. injection E as -> -> ->. rewrite trace_take. apply (fl_req _ HF). rewrite Hm. by left.
Qed.
(** The numbers of the answers which are taken from the channels are those of link requests. *)
Lemma fl_resp w p n m l id r q : fl w -> w_ch w p n = m :: l -> receive p m = OResp id r -> x_pend (sto w n) !! id = Some q -> link_query q = true.
Proof.
  intros HF Hm Hr Hq. destruct (reach_reqs _ _ _ (fl_reach _ HF n)) as (R1 & R2 & R3). pose proof (R3 _ _ Hq) as Hi.
  assert (Hx : forall x q', x ∈ trace w n -> req_ev x = Some (id, q') -> q = q').
  { intros x q' Hx He. eapply R2; [exact Hi|]. apply elem_of_list_omap. eauto. }
  assert (Hin : m ∈ w_ch w p n) by (rewrite Hm; by left).
  destruct m; cbn in Hr; try done; injection Hr as -> _.
  - destruct (fl_ans _ HF _ _ _ _ Hin) as [o Ho]. by rewrite (Hx _ _ Ho eq_refl).
  - destruct (fl_rep _ HF _ _ _ Hin) as [->|Ho].
    + destruct (reach_pend0 _ _ _ (fl_reach _ HF n)) as [_ H0]. apply H0 in Hi. lia.
    + by rewrite (Hx _ _ Ho eq_refl).
Qed.
End net.
