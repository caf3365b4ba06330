(** What an operation of the family does to the children. *)
From stdpp Require Import base list gmap.
From Verif Require Import Base StateModel ChildMgrModel ChildMgrSpec ChildMgrProofs ChildMgrFacts FamilyModel FamilySpec FamilySteps FamilyFold FamilyInv FamilyProofs ActorModel NetModel SystemModel.
Open Scope N_scope.

Definition kids (f : fstate) : gmap N child := cm_children (f_cm f).
Definition fresh : child := Child AInitializing None false.

Section fam.
Context (hp : bool) (policy : spolicy) (sync : bool).
Notation fstep := (fstep hp policy sync).
Notation manage := (manage hp policy sync).
Notation manage0 := (manage0 hp policy sync).
Notation deliver := (deliver hp policy sync).

(** What happens to all children, except for the one which gets a message. *)
Record quietly (f f' : fstate) (e : list cevent) : Prop := {
  qt_new : forall c, ECreated c ∈ e -> kids f' !! c = Some fresh /\ c = cm_next (f_cm f) /\ c < cm_next (f_cm f');
  qt_old : forall c, ECreated c ∉ e -> kids f' !! c = kids f !! c;
  qt_bye : forall c, c <> 0 -> c ∈ f_bye f' <-> c ∈ f_bye f;
  qt_next : cm_next (f_cm f) <= cm_next (f_cm f') }.
Lemma quietly_same f f' : f_cm f' = f_cm f -> f_bye f' = f_bye f -> quietly f f' [].
Proof. intros E1 E2. split; unfold kids; rewrite ?E1, ?E2; try done. by intros c ?%elem_of_nil. Qed.
Lemma quietly_after f f0 f' e : kids f0 = kids f -> f_bye f0 = f_bye f -> cm_next (f_cm f0) = cm_next (f_cm f) -> quietly f0 f' e -> quietly f f' e.
Proof. intros E1 E2 E3 [H1 H2 H3 H4]. split; rewrite <- ?E1, <- ?E2, <- ?E3; done. Qed.
Lemma quietly_then f f0 f' e : quietly f f0 e -> kids f' = kids f0 -> (forall c, c <> 0 -> c ∈ f_bye f' <-> c ∈ f_bye f0) -> cm_next (f_cm f') = cm_next (f_cm f0) -> quietly f f' e.
Proof. intros [H1 H2 H3 H4] E1 E2 E3. split; rewrite ?E1, ?E3; try done. intros c Hc. rewrite E2; auto. Qed.

Lemma manage_quietly fo ea f o f' e : cinv (f_cm f) -> (forall c ch, o <> OChild c ch) -> manage fo ea f o = Ok (f', e) -> quietly f f' e.
Proof.
  intros Hv Ho H. unfold FamilyModel.manage in H. destruct (cstep hp policy sync (f_cm f) o) as [[cm e1]| |] eqn:Hs; cbn [rbind] in H; [|done..].
  injection H as <- <-. assert (He : eff (f_cm f) o cm e1). { eapply step_eff; [exact Hv| |exact Hs]. destruct o; try done. by edestruct Ho. }
  set (t := foldl (react hp fo ea) (set_cm f cm) e1). assert (Ec : f_cm t = cm) by (unfold t; by rewrite fold_cm). assert (Eb : f_bye t = f_bye f) by (unfold t; by rewrite fold_bye).
  assert (Hk : forall c, ECreated c ∈ e1 -> c = cm_next (f_cm f) /\ (o = OCreate \/ exists a ok, o = OOnSpawn a ok)).
  { intros c Hc. pose proof (ef_kind _ _ _ _ He) as Hk. rewrite Forall_forall in Hk. by apply Hk in Hc. }
  split; unfold kids; cbn [f_cm set_init f_bye]; rewrite ?Ec, ?Eb; try done.
  - intros c Hc. destruct (Hk c Hc) as [E Hx]. split; [by apply (ef_new _ _ _ _ He)|]. split; [done|].
    destruct (ef_next _ _ _ _ He) as [En|(k & E2 & _)]; [|subst o; by destruct Hx as [?|(? & ? & ?)]].
    rewrite En. assert (Hin : c ∈ created e1) by (apply elem_of_list_omap; by exists (ECreated c)). destruct (created e1) as [|x l]; [by apply elem_of_nil in Hin|]. cbn [length]. lia.
  - apply (ef_old _ _ _ _ He).
  - destruct (ef_next _ _ _ _ He) as [En|(k & _ & En)]; rewrite En; lia.
Qed.

(** The child which gets a message. *)
Definition got (a : aop) (ch ch' : child) : Prop :=
  match a with
  | OInitReq => ch_state ch' = ch_state ch /\ ch_initreq ch' = true
  | OShutReq => ch_state ch' = AShuttingDown /\ ch_initreq ch' = ch_initreq ch
  | _ => ch' = ch
  end.
Record given (c : N) (a : aop) (f f' : fstate) : Prop := {
  gv_kind : a = OInitReq \/ a = OShutReq \/ a = OUnsubscribed;
  gv_in : c ∉ f_bye f;
  gv_old : forall d, d <> c -> kids f' !! d = kids f !! d;
  gv_child : match kids f !! c with Some ch => exists ch', kids f' !! c = Some ch' /\ got a ch ch' | None => kids f' !! c = None end;
  gv_bye : forall d, d <> c -> d ∈ f_bye f' <-> d ∈ f_bye f;
  gv_byec : is_Some (kids f !! c) -> c ∈ f_bye f' <-> a = OUnsubscribed;
  gv_byen : kids f !! c = None -> c ∉ f_bye f';
  gv_next : cm_next (f_cm f') = cm_next (f_cm f) }.
Lemma kids_from s c l : kids (from s c l) = kids s.
Proof. unfold from. by destruct (decide _). Qed.
Lemma kids_own s c l : kids (own s c l) = kids s.
Proof. unfold own. by destruct (decide _). Qed.
Lemma bye_from s c l : f_bye (from s c l) = f_bye s.
Proof. unfold from. by destruct (decide _). Qed.
Lemma bye_own s c l : f_bye (own s c l) = f_bye s.
Proof. unfold own. by destruct (decide _). Qed.
Lemma next_from s c l : cm_next (f_cm (from s c l)) = cm_next (f_cm s).
Proof. unfold from. by destruct (decide _). Qed.
Lemma next_own s c l : cm_next (f_cm (own s c l)) = cm_next (f_cm s).
Proof. unfold own. by destruct (decide _). Qed.
Lemma handles_given f c m abn esc a : at_actor f c m = Some (c, a) -> given c a f (child_handles f c m abn esc).
Proof.
  unfold at_actor, child_handles. destruct (decide _) as [?|Hb]; [done|]. unfold kids.
  destruct (cm_children (f_cm f) !! c) as [ch|] eqn:Ech.
  - destruct m; try done; intros [= <-].
    + split; unfold kids; cbn; rewrite ?Ech; try done; auto.
      * intros d Hd. by rewrite lookup_insert_ne.
      * eexists. split; [by rewrite lookup_insert|done].
    + assert (Hg : forall g, kids g = <[c:=Child AShuttingDown match ch_abn ch with | Some b => Some b | None => Some abn end (ch_initreq ch)]> (kids f) -> f_bye g = f_bye f ->
        cm_next (f_cm g) = cm_next (f_cm f) -> given c OShutReq f g).
      { intros g E1 E2 E3. split; rewrite ?E1, ?E2; unfold kids in *; rewrite ?Ech; try done; auto.
        - intros d Hd. by rewrite lookup_insert_ne.
        - eexists. split; [by rewrite lookup_insert|done]. }
      apply Hg; rewrite ?kids_own, ?bye_own, ?next_own; destruct esc; rewrite ?kids_from, ?bye_from, ?next_from; done.
    + split; unfold kids; cbn; rewrite ?Ech; try done; auto.
      * eauto.
      * intros d Hd. set_solver.
      * intros _. set_solver.
  - destruct m; try done; intros [= <-]; (split; unfold kids; rewrite ?Ech; try done; auto; by intros [? ?]).
Qed.
Lemma handles_nothing f c m abn esc : at_actor f c m = None -> child_handles f c m abn esc = f.
Proof. unfold at_actor, child_handles. destruct (decide _); [done|]. destruct m; try done; by destruct (_ !! _). Qed.
Lemma at_same f c m x : at_actor f c m = Some x -> exists a, x = (c, a).
Proof. unfold at_actor. destruct (decide _); [done|]. destruct m; intros [= <-]; eauto. Qed.
Lemma given_before f f0 f' c a : kids f0 = kids f -> f_bye f0 = f_bye f -> cm_next (f_cm f0) = cm_next (f_cm f) -> given c a f0 f' -> given c a f f'.
Proof. intros E1 E2 E3 [H1 H2 H3 H4 H5 H6 H7 H8]. split; rewrite <- ?E1, <- ?E2, <- ?E3; done. Qed.

Lemma deliver_effect f m q ok fo ea subs ask abn esc f' e :
  cinv (f_cm f) -> (0 ∉ f_bye f -> MShutReq 0 ∉ f_q f) -> f_q f = m :: q -> deliver (set_q f q) m ok fo ea subs ask abn esc = Ok (f', e) ->
  match handed f (FDeliver ok fo ea subs ask abn esc) with Some (c, a) => given c a f f' /\ c <> 0 /\ e = [] | None => quietly f f' e end.
Proof.
  intros Hv HZ Hq H. unfold handed. rewrite Hq.
  assert (HM : forall o, (forall c ch, o <> OChild c ch) -> manage0 (set_q f q) o = Ok (f', e) -> quietly f f' e).
  { intros o Ho HM. eapply (quietly_after f (set_q f q)); [done..|]. by eapply manage_quietly. }
  assert (HC : forall c m, to_child (set_q f q) c m abn esc = f' -> e = [] -> c <> 0 ->
    match (if decide (c = 0 \/ c ∈ f_foreign f) then None else at_actor f c m) with Some (c', a) => given c' a f f' /\ c' <> 0 /\ e = [] | None => quietly f f' e end).
  { clear. intros c m <- -> Hc. unfold to_child. cbn [f_foreign set_q]. destruct (decide (c ∈ f_foreign f)) as [Hf|Hf].
    - rewrite decide_True by auto. by apply quietly_same.
    - rewrite decide_False by tauto. change (at_actor f c m) with (at_actor (set_q f q) c m). destruct (at_actor (set_q f q) c m) as [[c' a]|] eqn:Ea.
      + destruct (at_same _ _ _ _ Ea) as [a' [= -> ->]]. split; [|done]. eapply (given_before f (set_q f q)); [done..|]. by apply handles_given.
      + rewrite handles_nothing by done. by apply quietly_same. }
  assert (HN : (if decide (0 ∈ f_bye (set_q f q)) then Ok (set_q f q, []) else Ok (set_q f q, [])) = Ok (f', e) -> quietly f f' e).
  { destruct (decide _); intros [= <- <-]; by apply quietly_same. }
  assert (HX : forall x g e0, f_cm g = f_cm f -> f_bye g = f_bye f -> confirm hp policy sync g x subs ask = Ok (f', e0) -> quietly f f' e0).
  { clear -Hv. intros x g e0 E1 E2. unfold confirm. destruct (manage0 g (OConfirm x subs ask)) as [[g1 e1]| |] eqn:Em; cbn [rbind]; try done. intros [= <- <-].
    apply manage_quietly in Em; [|by rewrite E1|done]. eapply (quietly_after f g); [unfold kids; by rewrite E1|done|by rewrite E1|].
    eapply (quietly_then _ g1); [done|by destruct subs..]. }
  unfold deliver in H. destruct m as [x|x|x|x failed|x|x|x|x|x|x|x]; cbn [deliver] in H.
  - destruct (decide _); [injection H as <- <-; by apply quietly_same|]. by eapply HM; [|exact H].
  - destruct (decide _); [injection H as <- <-; by apply quietly_same|]. eapply (quietly_after f (set_q f q)); [done..|]. by eapply manage_quietly; [| |exact H].
  - destruct (N.eqb_spec x 0) as [->|Hx].
    + rewrite decide_True by auto. destruct (decide _); [injection H as <- <-; by apply quietly_same|]. by eapply HM; [|exact H].
    + injection H as H1 <-. by apply HC.
  - destruct (decide _); [injection H as <- <-; by apply quietly_same|]. destruct (decide _); [|injection H as <- <-; by apply quietly_same].
    eapply (quietly_after f (set_init (set_q f q) (f_init (set_q f q) ∖ {[x]}))); [done..|]. by eapply manage_quietly; [| |exact H].
  - destruct (decide _); [injection H as <- <-; by apply quietly_same|].
    match type of H with manage0 ?g _ = _ => eapply (quietly_after f g) end; [done..|]. eapply manage_quietly; [| |exact H]; [|done]. cbn [f_cm set_cm set_q]. destruct Hv. by split.
  - destruct (decide _); [injection H as <- <-; by apply quietly_same|]. by eapply HM; [|exact H].
  - injection H as H1 <-. destruct (decide (x = 0)) as [->|Hx].
    + rewrite decide_True by auto. unfold to_child in H1. destruct (decide _) as [?|_] in H1; [subst f'; by apply quietly_same|]. unfold child_handles in H1.
      cbn [f_bye set_q] in H1. destruct (decide _) as [?|Hb] in H1; [subst f'; by apply quietly_same|]. exfalso. apply (HZ Hb). rewrite Hq. by left.
    + by apply HC.
  - destruct (decide _); [injection H as <- <-; by apply quietly_same|]. destruct (decide _); [|injection H as <- <-; by apply quietly_same]. by eapply HX; [| |exact H].
  - destruct (decide _); [injection H as <- <-; by apply quietly_same|]. by eapply HX; [| |exact H].
  - destruct (decide _); [injection H as <- <-; by apply quietly_same|]. by eapply HM; [|exact H].
  - destruct (N.eqb_spec x 0) as [->|Hx].
    + rewrite decide_True by auto. injection H as <- <-. split; try done; [by intros c ?%elem_of_nil|]. cbn. intros c Hc. set_solver.
    + injection H as H1 <-. by apply HC.
Qed.

Lemma step_effect f o f' e : cinv (f_cm f) -> (0 ∉ f_bye f -> MShutReq 0 ∉ f_q f /\ downl f 0 = []) -> by_child o = false -> fstep f o = Ok (f', e) ->
  match handed f o with Some (c, a) => given c a f f' /\ c <> 0 /\ e = [] | None => quietly f f' e end.
Proof.
  intros Hv HZ Hb H.
  assert (HM : forall o fo ea f0, (forall c ch, o <> OChild c ch) -> f_cm f0 = f_cm f -> f_bye f0 = f_bye f -> manage fo ea f0 o = Ok (f', e) -> quietly f f' e).
  { intros x fo ea f0 Ho E1 E2 HM. eapply (quietly_after f f0); [unfold kids; by rewrite E1|done|by rewrite E1|]. eapply manage_quietly; [|done|done]. by rewrite E1. }
  destruct o; try done; cbn [handed]; unfold fstep in H.
  - by eapply HM; [| | |exact H].
  - by eapply HM; [| | |exact H].
  - destruct (N.eqb_spec a 0) as [->|Ha].
    + injection H as <- <-. destruct (_ && _); by apply quietly_same.
    + destruct (_ !! a); injection H as <- <-; [|by apply quietly_same]. destruct (_ <? _); [|by apply quietly_same]. unfold from. destruct (decide _); by apply quietly_same.
  - destruct (f_q f) as [|m q] eqn:Hq; [injection H as <- <-; by apply quietly_same|]. pose proof (deliver_effect f m q ok foreign early subs ask abn esc f' e Hv) as HD.
    unfold handed in HD. rewrite Hq in HD. apply HD; [|done|done]. intros Hx. by destruct (HZ Hx) as [? _].
  - destruct (downl f c) as [|m l] eqn:Hd; [injection H as <- <-; by apply quietly_same|]. injection H as H1 <-.
    destruct (at_actor f c m) as [[c' a]|] eqn:Ea.
    + destruct (at_same _ _ _ _ Ea) as [a' [= -> ->]]. split_and!; [|intros ->|done].
      * eapply (given_before f (set_down f (<[c:=l]> (f_down f)))); [done..|]. subst f'. by apply handles_given.
      * unfold at_actor in Ea. destruct (decide _) as [?|Hx] in Ea; [done|]. destruct (HZ Hx) as [_ E]. by rewrite E in Hd.
    + subst f'. rewrite handles_nothing by done. by apply quietly_same.
  - destruct (upl f c) as [|m l]; injection H as <- <-; by apply quietly_same.
  - injection H as <- <-. destruct (decide _); by apply quietly_same.
  - injection H as <- <-. destruct (decide _); by apply quietly_same.
  - by eapply HM; [| | |exact H].
  - by eapply HM; [| | |exact H].
  - by eapply HM; [| | |exact H].
  - destruct (_ && _); [|injection H as <- <-; by apply quietly_same]. destruct (manage0 f (OState AInitialized)) as [[g e1]| |] eqn:Em; cbn [rbind] in H; try done. injection H as <- <-.
    apply manage_quietly in Em; [|done|done]. eapply quietly_then; [exact Em|by destruct hp..].
  - by eapply HM; [| | |exact H].
  - destruct hp; [by eapply HM; [| | |exact H]|]. injection H as <- <-; by apply quietly_same.
  - destruct hp; [by eapply HM; [| | |exact H]|]. injection H as <- <-; by apply quietly_same.
  - case_bool_decide; [by eapply HM; [| | |exact H]|]. injection H as <- <-; by apply quietly_same.
  - case_bool_decide; [|injection H as <- <-; by apply quietly_same]. destruct (manage0 (set_phase f PLeft) _) as [[g e1]| |] eqn:Em; cbn [rbind] in H; try done. injection H as <- <-.
    apply manage_quietly in Em; [|done|done]. eapply (quietly_after f (set_phase f PLeft)); [done..|]. eapply quietly_then; [exact Em|by destruct mapping_empty..].
  - injection H as <- <-. case_bool_decide; by apply quietly_same.
  - by eapply HM; [| | |exact H].
Qed.

(** What a child tells, and what this changes. *)
Record told (n : N) (f f' : fstate) (e : list cevent) : Prop := {
  td_ev : e = [];
  td_old : forall d, d <> n -> kids f' !! d = kids f !! d;
  td_bye : f_bye f' = f_bye f;
  td_next : cm_next (f_cm f') = cm_next (f_cm f) }.
Lemma told_refl n f : told n f f [].
Proof. by split. Qed.
Lemma told_trans n f1 f2 f3 e1 e2 : told n f1 f2 e1 -> told n f2 f3 e2 -> told n f1 f3 (e1 ++ e2).
Proof. intros [A1 A2 A3 A4] [B1 B2 B3 B4]. split; [by rewrite A1, B1| |congruence|congruence]. intros d Hd. rewrite B2, A2 by done. done. Qed.
Lemma evolve_told n f ch l : told n f (from (evolve f n ch) n l) [] /\ kids (from (evolve f n ch) n l) !! n = Some ch.
Proof.
  split.
  - split; [done| |by rewrite bye_from|by rewrite next_from]. intros d Hd. rewrite kids_from. unfold kids. cbn. by rewrite lookup_insert_ne.
  - rewrite kids_from. unfold kids. cbn. by rewrite lookup_insert.
Qed.
Lemma tell_err n f : n <> 0 -> exists f', fstep f (FChildInit n true) = Ok (f', []) /\ told n f f' [] /\
  (ch_state <$> kids f' !! n) = (ch_state <$> kids f !! n) /\ (kids f !! n = None -> kids f' !! n = None).
Proof.
  intros Hn. unfold FamilyModel.fstep, child_ready. fold (kids f). destruct (kids f !! n) as [ch|] eqn:E; [|exists f; split_and!; try done; try apply told_refl; by rewrite ?E].
  case_bool_decide as Hb; [|exists f; split_and!; try done; try apply told_refl; by rewrite ?E]. destruct (ch_initreq ch); [|exists f; split_and!; try done; try apply told_refl; by rewrite ?E].
  destruct (evolve_told n f (Child AInitializing (ch_abn ch) false) [MInitResp n true]) as [H1 H2].
  eexists. split; [done|]. split_and!; [done| |done]. rewrite H2. cbn. destruct Hb as [-> _]. done.
Qed.
Lemma tell_shut n f : n <> 0 -> exists f', fstep f (FShutdown n) = Ok (f', []) /\ told n f f' [] /\ kids f' = kids f.
Proof.
  intros Hn. unfold FamilyModel.fstep. destruct (N.eqb_spec n 0); [done|]. fold (kids f). destruct (kids f !! n) as [ch|] eqn:E; [|exists f; split_and!; try done; try apply told_refl; by rewrite ?E].
  destruct (_ <? _); (eexists; split; [done|]; split); try done; [|by rewrite kids_from].
  split; [done| |by rewrite bye_from|by rewrite next_from]. intros d _. by rewrite kids_from.
Qed.
Lemma tell_init n f ch : n <> 0 -> kids f !! n = Some ch -> ch_state ch = AInitializing -> ch_initreq ch = true ->
  exists f' ch', fstep f (FChildInit n false) = Ok (f', []) /\ told n f f' [] /\ kids f' !! n = Some ch' /\ ch_state ch' = AInitialized.
Proof.
  intros Hn E Hs Hr. unfold FamilyModel.fstep, child_ready. fold (kids f). rewrite E, bool_decide_true by done. rewrite Hr.
  destruct (evolve_told n f (Child AInitialized (ch_abn ch) false) [MInitResp n false]) as [H1 H2]. eexists _, _. split; [done|]. split_and!; done.
Qed.
Lemma tell_start n f ch : n <> 0 -> kids f !! n = Some ch -> ch_state ch = AInitialized ->
  exists f' ch', fstep f (FChildStart n) = Ok (f', []) /\ told n f f' [] /\ kids f' !! n = Some ch' /\ ch_state ch' = AOperational /\ ch_initreq ch' = ch_initreq ch.
Proof.
  intros Hn E Hs. unfold FamilyModel.fstep, child_ready. fold (kids f). rewrite E, bool_decide_true by done. eexists _, _. split; [done|]. split_and!.
  - split; [done| |done|done]. intros d Hd. unfold kids. cbn. by rewrite lookup_insert_ne.
  - unfold kids. cbn. by rewrite lookup_insert.
  - done.
  - done.
Qed.
Lemma tell_done n f ch : n <> 0 -> kids f !! n = Some ch -> ch_state ch = AShuttingDown -> n ∈ f_bye f ->
  exists f' ch', fstep f (FChildDone n) = Ok (f', []) /\ told n f f' [] /\ kids f' !! n = Some ch' /\ ch_state ch' = AShutDown /\ ch_initreq ch' = ch_initreq ch.
Proof.
  intros Hn E Hs Hb. unfold FamilyModel.fstep, child_ready. fold (kids f). rewrite E, bool_decide_true by done. rewrite decide_True by done.
  destruct (evolve_told n f (Child AShutDown (ch_abn ch) (ch_initreq ch)) [MShutResp n]) as [H1 H2]. eexists _, _. split; [done|]. split_and!; done.
Qed.
End fam.
