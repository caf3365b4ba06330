(** A child gets one init request: a child which is initialized has none in hand (used by
    C82). *)
From stdpp Require Import base list gmap.
From Verif Require Import Base ChildMgrModel ChildMgrSpec ChildMgrProofs ChildMgrTrace ChildMgrFacts FamilyModel FamilySpec FamilySteps FamilyFold FamilyInv FamilyProofs FamilyInit TreeModel TreeInv FamilyStartSpec FamilyStartProofs.
From Verif Require FlowProofs FamilyEndProofs TreeNode TreeSteps.
Open Scope N_scope.

Section once.
Context (hp : bool) (policy : spolicy) (sync : bool) (c : N) (Hc : c <> 0).
Notation step := (cstep hp policy sync).
Notation fstep := (fstep hp policy sync).
Notation manage := (manage hp policy sync).
Notation react := (react hp).
Notation deliver := (deliver hp policy sync).

(** Messages which lead to an init request of [c], and what the child has done with it. *)
Definition opens (m : fmsg) : nat := match m with MCreate a | MInitReq a => if a =? c then 1%nat else 0%nat | _ => 0%nat end.
Definition cnt (l : list fmsg) : nat := sum_list_with opens l.
Definition om (s : fstate) : nat := (cnt (f_q s) + cnt (downl s c))%nat.
Definition kid (ch : child) : nat :=
  match ch_state ch with
  | AShuttingDown | AShutDown => 0%nat
  | AInitialized | AOperational => ((if ch_initreq ch then 1 else 0) + 1)%nat
  | _ => if ch_initreq ch then 1%nat else 0%nat
  end.
Definition kidm (s : fstate) : nat := match cm_children (f_cm s) !! c with Some ch => kid ch | None => 0%nat end.
Definition tot (s : fstate) : nat := (om s + kidm s)%nat.
Definition lines (s : fstate) : Prop := (forall d, Forall (fun m => opens m = 0%nat) (upl s d)) /\ forall d, Forall (fun m => match m with MInitReq a => a = d | MCreate _ => False | _ => True end) (downl s d).
Definition evn (x : cevent) : nat := match x with ECreated a | EInitReq a => if a =? c then 1%nat else 0%nat | _ => 0%nat end.
Definition evs (e : list cevent) : nat := sum_list_with evn e.

Local Arguments cnt : simpl never.
Lemma cnt_app l l' : cnt (l ++ l') = (cnt l + cnt l')%nat.
Proof. apply sum_list_with_app. Qed.
Lemma push_once s l : om (push s l) = (om s + cnt l)%nat /\ (lines s -> lines (push s l)) /\ kidm (push s l) = kidm s.
Proof. unfold om, push, downl. cbn. rewrite cnt_app. split; [lia|done]. Qed.
Lemma from_once s d l : Forall (fun m => opens m = 0%nat) l -> om (from s d l) = om s /\ (lines s -> lines (from s d l)) /\ kidm (from s d l) = kidm s.
Proof.
  intros Hl. assert (Hz : cnt l = 0%nat) by (induction Hl as [|m l Hm _ IH]; [done|]; unfold cnt in *; cbn; lia).
  unfold from. destruct (decide _); [|destruct (push_once s l) as (-> & A & B); split; [lia|done]]. split; [done|]. split; [|done].
  intros [L1 L2]. split; [|done]. intros x. unfold upl. cbn. destruct (decide (d = x)) as [->|Hne]; [rewrite lookup_insert; cbn; apply Forall_app; split; [apply L1|done]|rewrite lookup_insert_ne by done; apply L1].
Qed.
Lemma react_once fo ea s x : lines s -> (om (react fo ea s x) <= om s + evn x)%nat /\ lines (react fo ea s x) /\ kidm (react fo ea s x) = kidm s.
Proof.
  intros L. assert (Hsame : (om s <= om s + evn x)%nat /\ lines s /\ kidm s = kidm s) by (split; [lia|done]).
  assert (Hp : forall s0 l, om s0 = om s -> (lines s0) -> kidm s0 = kidm s -> (cnt l <= evn x)%nat -> (om (push s0 l) <= om s + evn x)%nat /\ lines (push s0 l) /\ kidm (push s0 l) = kidm s).
  { intros s0 l H1 H2 H3 H4. destruct (push_once s0 l) as (-> & A & ->). split; [lia|]. split; [by apply A|done]. }
  destruct x; cbn [FamilyModel.react]; try exact Hsame.
  - apply Hp; try done; try (unfold cnt; cbn; lia).
    all: set (s1 := if fo then _ else s); assert (E : om s1 = om s /\ lines s1 /\ kidm s1 = kidm s) by (unfold s1; by destruct fo); destruct E as (E1 & E2 & E3);
      destruct (from_once s1 c0 [MTrigger c0]) as (F1 & F2 & F3); [by repeat constructor|]; destruct ea; first [congruence|by apply F2|done].
  - apply Hp; try done; unfold cnt; cbn; lia.
  - apply Hp; try done; unfold cnt; cbn; lia.
  - destruct hp; [exact Hsame|]. apply Hp; try done; unfold cnt; cbn; lia.
  - apply Hp; try done; unfold cnt; cbn; lia.
  - destruct hp; [exact Hsame|]. apply Hp; try done; unfold cnt; cbn; lia.
  - apply Hp; try done; unfold cnt; cbn; lia.
  - destruct (from_once s c0 [MTrigger c0]) as (F1 & F2 & F3); [by repeat constructor|]. split; [lia|]. split; [by apply F2|done].
  - destruct b; done.
Qed.
Lemma reacts_once fo ea e : forall s, lines s -> (om (foldl (react fo ea) s e) <= om s + evs e)%nat /\ lines (foldl (react fo ea) s e).
Proof.
  induction e as [|x e IH]; intros s L; cbn [foldl]; [split; [unfold evs; cbn; lia|done]|]. destruct (react_once fo ea s x L) as (A & B & _). destruct (IH _ B) as (C & D).
  split; [|done]. unfold evs in *. cbn. lia.
Qed.
Lemma evs_none e : (forall x, x ∈ e -> evn x = 0%nat) -> evs e = 0%nat.
Proof. induction e as [|x e IH]; intros H; [done|]. unfold evs in *. cbn. rewrite H by left. apply IH. intros y Hy. apply H. by right. Qed.
Definition opened (o : cop) : nat := match o with OOnCreate a => if a =? c then 1%nat else 0%nat | _ => 0%nat end.
Definition born (e : list cevent) : nat := if decide (ECreated c ∈ e) then 1%nat else 0%nat.
Lemma evn_one x : evn x <> 0%nat -> x = ECreated c \/ x = EInitReq c.
Proof. destruct x; cbn; try done; destruct (N.eqb_spec c0 c) as [->|]; auto; done. Qed.
Lemma cstep_once s o s' e : cinv s -> match o with OChild _ _ => False | _ => True end -> step s o = Ok (s', e) -> (evs e <= opened o + born e)%nat.
Proof.
  intros Hv Ho H. pose proof (step_eff hp policy sync _ _ _ _ Hv Ho H) as E. pose proof (ef_kind _ _ _ _ E) as Hk. rewrite Forall_forall in Hk.
  assert (Hz : (forall x, x ∈ e -> evn x = 0%nat) -> (evs e <= opened o + born e)%nat) by (intros Hx; rewrite evs_none by done; lia).
  assert (Hother : (o <> OCreate) -> (forall a ok, o <> OOnSpawn a ok) -> (forall a, o <> OOnCreate a) -> (evs e <= opened o + born e)%nat).
  { intros H1 H2 H3. apply Hz. intros x Hx. destruct (decide (evn x = 0%nat)) as [|Hne]; [done|exfalso]. apply evn_one in Hne as [->| ->]; apply Hk in Hx; cbn in Hx; [|by eapply H3].
    destruct Hx as [_ [?|(a & ok & ?)]]; [done|by eapply H2]. }
  destruct o; try (apply Hother; done).
  - cbn in H. injection H as _ <-. unfold born, evs, evn. cbn. destruct (N.eqb_spec (cm_next s) c) as [<-|]; [|lia]. rewrite decide_True by left. lia.
  - cbn -[on_spawn] in H. destruct (take_first a (cm_spawnq s)) as [q|]; [|injection H as _ <-; unfold evs; cbn; lia]. unfold on_spawn in H. destruct (cm_map _ !! a) as [i|]; [|done].
    destruct (negb _); [injection H as _ <-; unfold evs; cbn; lia|]. destruct (ok && _).
    + cbn in H. injection H as _ <-. unfold born, evs, evn. cbn. destruct (N.eqb_spec (cm_next s) c) as [<-|]; [|lia]. rewrite decide_True by (right; left). lia.
    + apply Hz. intros x Hx. destruct (decide (evn x = 0%nat)) as [|Hne]; [done|exfalso]. assert (Hn : x <> ECreated c /\ x <> EInitReq c); [|apply evn_one in Hne; tauto].
      assert (Hs : forall y, x ∈ self_shutdown y -> x <> ECreated c /\ x <> EInitReq c) by (intros y Hy; by apply TreeSteps.self_in in Hy as [-> _]).
      clear Hk E Hz Hother Ho. assert (Hl : forall l id, x ∈ EAttempt (default 0 (ci_sid i)) (cm_now (set_spawnq s q)) :: l ++ [ESpawnTimer id] -> (x ∈ l -> x <> ECreated c /\ x <> EInitReq c) -> x <> ECreated c /\ x <> EInitReq c).
      { intros l id Hy Hl. apply elem_of_cons in Hy as [->|Hy]; [done|]. apply elem_of_app in Hy as [Hy|Hy]; [auto|]. apply elem_of_list_singleton in Hy. by subst x. }
      assert (Hl0 : forall l, x ∈ EAttempt (default 0 (ci_sid i)) (cm_now (set_spawnq s q)) :: l -> (x ∈ l -> x <> ECreated c /\ x <> EInitReq c) -> x <> ECreated c /\ x <> EInitReq c).
      { intros l Hy Hl1. apply elem_of_cons in Hy as [->|Hy]; [done|auto]. }
      destruct (bool_decide _ && bool_decide _) in H; [destruct (cm_initreq _) in H|].
      * injection H as _ <-. eapply Hl0; [exact Hx|]. intros Hy. apply elem_of_list_singleton in Hy. by subst x.
      * injection H as _ <-. eapply Hl0; [exact Hx|]. apply Hs.
      * destruct (_ || _) in H; cbn in H; injection H as _ <-; [eapply (Hl []); [exact Hx|]|eapply (Hl0 []); [exact Hx|]]; intros Hy; by apply elem_of_nil in Hy.
  - cbn -[on_create] in H. destruct (take_first _ _); [|injection H as _ <-; unfold evs; cbn; lia]. unfold on_create in H. destruct (cm_map _ !! _); [|done]. injection H as _ <-. unfold evs. cbn. lia.
Qed.
Lemma manage_once fo ea s o s' e : cinv (f_cm s) -> match o with OChild _ _ => False | _ => True end -> lines s -> manage fo ea s o = Ok (s', e) -> (tot s' <= tot s + opened o + born e)%nat /\ lines s'.
Proof.
  intros Hv Ho L H. unfold FamilyModel.manage in H. destruct (step (f_cm s) o) as [[cm e0]| |] eqn:E; [|done..]. cbn in H. injection H as <- <-.
  pose proof (cstep_once _ _ _ _ Hv Ho E) as Hn. pose proof (step_eff hp policy sync _ _ _ _ Hv Ho E) as Ef. destruct (reacts_once fo ea e0 (set_cm s cm) L) as (A & B). split; [|exact B].
  unfold tot. set (s1 := foldl _ _ _) in *. change (om (set_init s1 (f_init s1 ∩ cm_initout cm))) with (om s1). change (om (set_cm s cm)) with (om s) in A.
  assert (Hk : (kidm (set_init s1 (f_init s1 ∩ cm_initout cm)) <= kidm s)%nat); [|lia]. unfold kidm. cbn. unfold s1. rewrite fold_cm. cbn. unfold born in *. destruct (decide (ECreated c ∈ e0)) as [Hi|Hi].
  - rewrite (ef_new _ _ _ _ Ef c Hi). cbn. lia.
  - by rewrite (ef_old _ _ _ _ Ef c Hi).
Qed.
(** The children. *)
Definition gain (d : N) (ch ch' : child) : nat := if (d =? c) && (ch_initreq ch' && negb (ch_initreq ch)) then 1%nat else 0%nat.
Lemma evolve_once s d ch ch' : cm_children (f_cm s) !! d = Some ch -> (d = c -> kid ch' <= kid ch + gain d ch ch')%nat ->
  (tot (evolve s d ch') <= tot s + gain d ch ch')%nat /\ (lines s -> lines (evolve s d ch')).
Proof.
  intros E Hk. split; [|done]. unfold tot, om, kidm, downl. cbn. destruct (decide (d = c)) as [->|Hne]; [rewrite lookup_insert, E; specialize (Hk eq_refl); lia|rewrite lookup_insert_ne by done; lia].
Qed.
Lemma own_once s d : tot (own s d [MBye d]) = tot s /\ (lines s -> lines (own s d [MBye d])).
Proof.
  unfold own. destruct (decide _).
  - unfold tot, om, kidm, downl, lines, upl. cbn. split; [|intros [L1 L2]; split; [exact L1|]; intros x].
    + destruct (decide (d = c)) as [->|Hne]; [rewrite lookup_insert; cbn; rewrite cnt_app; unfold cnt, downl; cbn; lia|by rewrite lookup_insert_ne].
    + unfold downl in *. cbn. destruct (decide (d = x)) as [->|Hne]; [rewrite lookup_insert; cbn; apply Forall_app; split; [apply L2|by repeat constructor]|rewrite lookup_insert_ne by done; apply L2].
  - destruct (push_once s [MBye d]) as (A & B & C). unfold tot. rewrite A, C. unfold cnt. cbn. split; [lia|done].
Qed.
Lemma handles_once s d m abn esc : lines s -> match m with MInitReq a => a = d | _ => True end -> (tot (child_handles s d m abn esc) <= tot s + opens m)%nat /\ lines (child_handles s d m abn esc).
Proof.
  intros L Hm. assert (Hsame : (tot s <= tot s + opens m)%nat /\ lines s) by (split; [lia|done]). unfold child_handles. destruct (decide _); [exact Hsame|].
  destruct (cm_children (f_cm s) !! d) as [ch|] eqn:E; [|exact Hsame]. destruct m; try exact Hsame.
  - subst c0. destruct (evolve_once s d ch (Child (ch_state ch) (ch_abn ch) true) E) as [A B].
    + intros ->. unfold kid, gain. rewrite N.eqb_refl. cbn. destruct (ch_state ch), (ch_initreq ch); cbn; lia.
    + split; [|by apply B]. unfold gain in A. cbn in A |- *. destruct (d =? c), (ch_initreq ch); cbn in A; lia.
  - set (ch' := Child AShuttingDown _ _). destruct (evolve_once s d ch ch' E) as [A B]; [unfold kid; cbn; lia|].
    replace (gain d ch ch') with 0%nat in A by (unfold gain; cbn; destruct (ch_initreq ch), (d =? c); done).
    set (s1 := if esc then _ else _). assert (E1 : tot s1 = tot (evolve s d ch') /\ lines s1).
    { unfold s1. destruct esc; [|split; [done|by apply B]]. destruct (from_once (evolve s d ch') d [MTrigger 0]) as (F1 & F2 & F3); [by repeat constructor|]. unfold tot. rewrite F1, F3. split; [done|by apply F2, B]. }
    destruct E1 as [E1 E2]. destruct (own_once s1 d) as [G1 G2]. split; [|by apply G2]. cbn [opens]. lia.
Qed.
Lemma to_once s d m abn esc : lines s -> match m with MInitReq a => a = d | MCreate _ => False | _ => True end -> (tot (to_child s d m abn esc) <= tot s + opens m)%nat /\ lines (to_child s d m abn esc).
Proof.
  intros L Hm. unfold to_child. destruct (decide _); [|apply handles_once; [done|]; by destruct m].
  destruct L as [L1 L2]. split.
  - unfold tot, om, kidm, downl. cbn. destruct (decide (d = c)) as [->|Hne]; [rewrite lookup_insert; cbn; rewrite cnt_app; unfold cnt, downl; cbn; lia|rewrite lookup_insert_ne by done; lia].
  - split; [exact L1|]. intros x. unfold downl. cbn. destruct (decide (d = x)) as [->|Hne]; [rewrite lookup_insert; cbn; apply Forall_app; split; [apply L2|]|rewrite lookup_insert_ne by done; apply L2].
    constructor; [|done]. by destruct m.
Qed.
Lemma deliver_once s m ok fo ea subs ask abn esc s' e : cinv (f_cm s) -> lines s -> deliver s m ok fo ea subs ask abn esc = Ok (s', e) -> (tot s' <= tot s + opens m + born e)%nat /\ lines s'.
Proof.
  intros Hv L H. assert (Hsame : Ok (s, []) = Ok (s', e) -> (tot s' <= tot s + opens m + born e)%nat /\ lines s') by (intros Hs; injection Hs as <- <-; split; [lia|done]).
  assert (Hto : forall d, match m with MInitReq a => a = d | MCreate _ => False | _ => True end -> Ok (to_child s d m abn esc, []) = Ok (s', e) -> (tot s' <= tot s + opens m + born e)%nat /\ lines s').
  { intros d Hd Hs. injection Hs as <- <-. destruct (to_once s d m abn esc L Hd) as [A B]. split; [lia|done]. }
  assert (Hman : forall f1 f2 s0 o, cinv (f_cm s0) -> match o with OChild _ _ => False | _ => True end -> lines s0 -> tot s0 = tot s -> (opened o <= opens m)%nat -> manage f1 f2 s0 o = Ok (s', e) -> (tot s' <= tot s + opens m + born e)%nat /\ lines s').
  { intros f1 f2 s0 o H1 H2 H3 H4 H5 Hs. destruct (manage_once _ _ _ _ _ _ H1 H2 H3 Hs) as [A B]. split; [lia|done]. }
  assert (Hcf : forall s0 d, cinv (f_cm s0) -> lines s0 -> tot s0 = tot s -> confirm hp policy sync s0 d subs ask = Ok (s', e) -> (tot s' <= tot s + opens m + born e)%nat /\ lines s').
  { intros s0 d H1 H3 H4 Hs. unfold confirm in Hs. destruct (manage0 hp policy sync s0 (OConfirm d subs ask)) as [[s1 e1]| |] eqn:E; [|done..]. unfold manage0 in E. cbn in Hs. injection Hs as <- <-.
    destruct (manage_once false false s0 (OConfirm d subs ask) s1 e1 H1 I H3 E) as [A B]. cbn in A. destruct subs; [|split; [lia|done]]. destruct (push_once s1 [MUnsub d]) as (P1 & P2 & P3). unfold tot in *. rewrite P1, P3. unfold cnt. cbn. split; [lia|by apply P2]. }
  destruct m; cbn [FamilyModel.deliver] in H.
  - destruct (decide _); [by apply Hsame|]. eapply Hman; [| | | | |exact H]; try done; cbn; lia.
  - destruct (decide _); [by apply Hsame|]. eapply Hman; [| | | | |exact H]; try done; cbn; lia.
  - destruct (c0 =? 0); [destruct (decide _); [by apply Hsame|]; eapply Hman; [| | | | |exact H]; try done; cbn; lia|by eapply Hto].
  - destruct (decide _); [by apply Hsame|]. destruct (decide _); [|by apply Hsame]. eapply Hman; [| | | | |exact H]; try done; cbn; lia.
  - destruct (decide _); [by apply Hsame|]. eapply Hman; [| | | | |exact H]; try done; try (cbn; lia); by apply FlowProofs.cinv_initout.
  - destruct (decide _); [by apply Hsame|]. eapply Hman; [| | | | |exact H]; try done; cbn; lia.
  - by eapply Hto.
  - destruct (decide _); [by apply Hsame|]. destruct (decide _); [|by apply Hsame]. eapply Hcf; [| | |exact H]; done.
  - destruct (decide _); [by apply Hsame|]. eapply Hcf; [| | |exact H]; done.
  - destruct (decide _); [by apply Hsame|]. eapply Hman; [| | | | |exact H]; try done; cbn; lia.
  - destruct (c0 =? 0); [injection H as <- <-; split; [change (tot (set_bye s _)) with (tot s); lia|done]|by eapply Hto].
Qed.
Lemma fstep_once s o s' e : cinv (f_cm s) -> lines s -> fstep s o = Ok (s', e) -> (tot s' <= tot s + born e)%nat /\ lines s'.
Proof.
  intros Hv L H. assert (Hsame : Ok (s, []) = Ok (s', e) -> (tot s' <= tot s + born e)%nat /\ lines s') by (intros Hs; injection Hs as <- <-; split; [lia|done]).
  assert (Hpush : forall s0 l, tot s0 = tot s -> lines s0 -> cnt l = 0%nat -> (tot (push s0 l) <= tot s + born e)%nat /\ lines (push s0 l)).
  { intros s0 l H1 H2 H3. destruct (push_once s0 l) as (A & B & C). unfold tot in *. rewrite A, C. split; [lia|by apply B]. }
  assert (Hfrom : forall s0 d l, (tot s0 <= tot s)%nat -> lines s0 -> Forall (fun m => opens m = 0%nat) l -> (tot (from s0 d l) <= tot s + born e)%nat /\ lines (from s0 d l)).
  { intros s0 d l H1 H2 H3. destruct (from_once s0 d l H3) as (A & B & C). unfold tot in *. rewrite A, C. split; [lia|by apply B]. }
  assert (Hman : forall f1 f2 s0 o s1 e1, f_cm s0 = f_cm s -> match o with OChild _ _ => False | _ => True end -> lines s0 -> tot s0 = tot s -> opened o = 0%nat -> manage f1 f2 s0 o = Ok (s1, e1) -> (tot s1 <= tot s + born e1)%nat /\ lines s1).
  { intros f1 f2 s0 o0 s1 e1 H1 H2 H3 H4 H5 Hs. rewrite <-H1 in Hv. destruct (manage_once _ _ _ _ _ _ Hv H2 H3 Hs) as [A B]. split; [lia|done]. }
  destruct o; cbn [FamilyModel.fstep] in H.
  - eapply Hman; [| | | | |exact H]; done.
  - eapply Hman; [| | | | |exact H]; done.
  - destruct (a =? 0); [injection H as <- <-; destruct (_ && _); [by apply Hpush|split; [lia|done]]|]. destruct (cm_children _ !! a) as [ch|]; [|by apply Hsame]. injection H as <- <-.
    destruct (_ <? _); [apply Hfrom; [done..|by repeat constructor]|split; [lia|done]].
  - destruct (f_q s) as [|m q] eqn:Eq; [by apply Hsame|]. destruct (deliver_once (set_q s q) m _ _ _ _ _ _ _ _ _ Hv L H) as [A B]. split; [|done].
    assert (Et : tot s = (tot (set_q s q) + opens m)%nat); [|lia]. unfold tot, om. rewrite Eq. unfold cnt, downl, kidm. cbn. lia.
  - destruct (downl s c0) as [|m l] eqn:El; [by apply Hsame|]. injection H as <- <-. pose proof L as [L1 L2]. pose proof (L2 c0) as Hd. rewrite El in Hd. apply Forall_cons in Hd as [Hm Hd].
    assert (Ls : lines (set_down s (<[c0 := l]> (f_down s)))).
    { split; [exact L1|]. intros x. unfold downl. cbn. destruct (decide (c0 = x)) as [->|Hne]; [by rewrite lookup_insert|rewrite lookup_insert_ne by done; apply L2]. }
    destruct (handles_once _ c0 m abn esc Ls) as [A B]; [by destruct m|]. split; [|exact B]. assert (Et : (tot (set_down s (<[c0 := l]> (f_down s))) + (if decide (c0 = c) then opens m else 0) = tot s)%nat).
    { unfold tot, om, kidm. cbn. destruct (decide (c0 = c)) as [->|Hne]; [rewrite El; unfold downl; cbn; rewrite lookup_insert; unfold cnt; cbn; lia|]. unfold downl. cbn. rewrite lookup_insert_ne by done. lia. }
    destruct (decide (c0 = c)) as [->|Hne]; [lia|]. (* a message of another child *)
    destruct (decide (opens m = 0%nat)) as [Hz|Hz]; [lia|]. exfalso. destruct m; try (by cbn in Hz).
    subst c1. cbn in Hz. by rewrite (proj2 (N.eqb_neq c0 c) Hne) in Hz.
  - destruct (upl s c0) as [|m l] eqn:El; [by apply Hsame|]. injection H as <- <-. pose proof L as [L1 L2]. pose proof (L1 c0) as Hd. rewrite El in Hd. apply Forall_cons in Hd as [Hm Hd].
    apply Hpush; [done| |unfold cnt; cbn; lia]. split; [|exact L2]. intros x. unfold upl. cbn. destruct (decide (c0 = x)) as [->|Hne]; [by rewrite lookup_insert|rewrite lookup_insert_ne by done; apply L1].
  - unfold child_ready in H. destruct (cm_children (f_cm s) !! c0) as [ch|] eqn:E; [|by apply Hsame]. destruct (bool_decide _) eqn:Eb; [|by apply Hsame]. apply bool_decide_eq_true_1 in Eb as [Es _].
    destruct (ch_initreq ch) eqn:Er; [|by apply Hsame]. injection H as <- <-. apply Hfrom; [|done|by repeat constructor].
    destruct (evolve_once s c0 ch (Child (if failed then AInitializing else AInitialized) (ch_abn ch) false) E) as [A B].
    + intros ->. unfold kid. rewrite Es, Er. cbn. destruct failed; lia.
    + unfold gain in A. cbn in A. rewrite andb_false_r in A. lia.
  - unfold child_ready in H. destruct (cm_children (f_cm s) !! c0) as [ch|] eqn:E; [|by apply Hsame]. destruct (bool_decide _) eqn:Eb; [|by apply Hsame]. apply bool_decide_eq_true_1 in Eb as [Es _].
    injection H as <- <-. destruct (evolve_once s c0 ch (Child AOperational (ch_abn ch) (ch_initreq ch)) E) as [A B].
    + intros ->. unfold kid. rewrite Es. cbn. lia.
    + unfold gain in A. cbn in A. rewrite andb_negb_r, andb_false_r in A. split; [lia|done].
  - unfold child_ready in H. destruct (cm_children (f_cm s) !! c0) as [ch|] eqn:E; [|by apply Hsame]. destruct (bool_decide _) eqn:Eb; [|by apply Hsame]. apply bool_decide_eq_true_1 in Eb as [Es _].
    destruct (decide _); [|by apply Hsame]. injection H as <- <-. apply Hfrom; [|done|by repeat constructor]. destruct (evolve_once s c0 ch (Child AShutDown (ch_abn ch) (ch_initreq ch)) E) as [A B].
    + intros ->. unfold kid. cbn. lia.
    + unfold gain in A. cbn in A. rewrite andb_negb_r, andb_false_r in A. lia.
  - injection H as <- <-. destruct (decide _); [by apply Hpush|split; [lia|done]].
  - injection H as <- <-. destruct (decide _); [by apply Hpush|split; [lia|done]].
  - eapply Hman; [| | | | |exact H]; done.
  - eapply Hman; [| | | | |exact H]; done.
  - eapply Hman; [| | | | |exact H]; done.
  - destruct (_ && _); [|by apply Hsame]. unfold manage0 in H. destruct (manage false false s (OState AInitialized)) as [[s1 e1]| |] eqn:E; [|done..]. cbn in H. injection H as <- <-.
    destruct (Hman false false s (OState AInitialized) s1 e1) as [A B]; try done. clear Hpush Hman Hsame. destruct (push_once s1 [MInitResp 0 false]) as (P1 & P2 & P3).
    assert (Hb : forall b : bool, (tot (if b then s1 else push s1 [MInitResp 0 false]) <= tot s + born e1)%nat /\ lines (if b then s1 else push s1 [MInitResp 0 false])); [|apply Hb].
    intros []; [done|]. unfold tot in *. rewrite P1, P3. unfold cnt. cbn. split; [lia|by apply P2].
  - eapply Hman; [| | | | |exact H]; done.
  - assert (Hb : forall b : bool, (if b then manage false false s OInitRequest else Ok (s, [])) = Ok (s', e) -> (tot s' <= tot s + born e)%nat /\ lines s'); [|by eapply Hb].
    intros [] Hx; [eapply Hman; [| | | | |exact Hx]; done|by apply Hsame].
  - assert (Hb : forall b : bool, (if b then manage false false s (OState AShuttingDown) else Ok (s, [])) = Ok (s', e) -> (tot s' <= tot s + born e)%nat /\ lines s'); [|by eapply Hb].
    intros [] Hx; [eapply Hman; [| | | | |exact Hx]; done|by apply Hsame].
  - destruct (bool_decide _); [|by apply Hsame]. eapply Hman; [| | | | |exact H]; done.
  - destruct (bool_decide _); [|by apply Hsame]. unfold manage0 in H. destruct (manage false false (set_phase s PLeft) (ODeactivate mapping_empty ask)) as [[s1 e1]| |] eqn:E; [|done..]. cbn in H. injection H as <- <-.
    destruct (Hman false false (set_phase s PLeft) (ODeactivate mapping_empty ask) s1 e1) as [A B]; try done. destruct mapping_empty; [|done]. destruct (push_once s1 [MBye 0]) as (P1 & P2 & P3).
    unfold tot in *. rewrite P1, P3. unfold cnt. cbn. split; [lia|by apply P2].
  - injection H as <- <-. destruct (bool_decide _); [by apply Hpush|split; [lia|done]].
  - eapply Hman; [| | | | |exact H]; done.
Qed.
Definition ones (s : fstate) (ev : list cevent) : Prop := oall s ev /\ lines s /\ (known s c -> tot s <= 1)%nat /\ (~ known s c -> tot s = 0)%nat.
Lemma step_ones s ev o s' e : ones s ev -> orderly s o -> fstep s o = Ok (s', e) -> ones s' (ev ++ e).
Proof.
  intros (Ho & L & H1 & H2) Hor H. split; [by eapply step_oall|]. pose proof Ho as (Hf & Hoi & _). pose proof (ai_c _ _ _ (fi_all _ _ Hf)) as Hv. destruct (fstep_once s o s' e Hv L H) as [A B]. split; [done|].
  unfold born in A. destruct (decide (ECreated c ∈ e)) as [Hi|Hi].
  - assert (Hk : ~ known s c).
    { intros Hk. apply (o_known _ _ Hoi c) in Hk; [|done]. destruct (h_next _ _ (ai_h _ _ _ (fi_all _ _ Hf)) c Hk) as [_ Hlt].
      pose proof H as Hs. apply step_shape in Hs as [fo ea co s1 s2 l P Hm Hq Hfi Hl|He So]; [|subst e; by apply elem_of_nil in Hi].
      assert (Hn : cinv (f_cm s1) /\ cm_next (f_cm s1) = cm_next (f_cm s)). { destruct (pr_cm _ _ _ P) as [->|[x ->]]; [done|]. split; [by apply FlowProofs.cinv_initout|done]. }
      destruct Hn as [Hv1 Hn]. destruct (manage_keeps _ _ _ _ _ _ _ _ _ Hm) as (_ & _ & _ & _ & Hst). assert (E : eff (f_cm s1) co (f_cm s2) e) by (eapply step_eff; [exact Hv1| |exact Hst]; by destruct co).
      pose proof (ef_kind _ _ _ _ E) as Hkd. rewrite Forall_forall in Hkd. apply Hkd in Hi as [Hi _]. lia. }
    rewrite (H2 Hk) in A. split; [intros _; lia|]. intros Hn. exfalso. apply Hn. pose proof (step_oall hp policy sync s ev o s' e Ho Hor H) as (_ & Ho' & _). apply (o_created _ _ Ho'). apply elem_of_app. by right.
  - assert (Hk : known s c -> known s' c). { intros Hk. pose proof (step_oall hp policy sync s ev o s' e Ho Hor H) as (_ & Ho' & _). apply (o_created _ _ Ho'). apply elem_of_app. left. by apply (o_known _ _ Hoi). }
    assert (Hd : known s c \/ ~ known s c) by (unfold known; destruct (cm_children (f_cm s) !! c); [left; eauto|right; intros [? ?]; done]).
    destruct Hd as [Hd|Hd]; [specialize (H1 Hd); split; [intros _; lia|intros Hn; exfalso; auto]|]. specialize (H2 Hd). split; intros _; lia.
Qed.
Lemma fam_ones ops s ev : guarded fstep orderly (finit hp) ops -> run fstep (finit hp) ops = Ok (s, ev) -> ones s ev.
Proof.
  intros Hg H. refine (run_inv_ev fstep orderly ones _ ops (finit hp) [] s ev _ Hg H).
  - intros s0 ev0 o s1 e1 Ha Hor Hs. by eapply step_ones.
  - split; [split; [apply finv_init|]; split; [apply oinv_init|done]|]. split; [split; intros d; cbn; apply Forall_nil_2|].
    assert (E : tot (finit hp) = 0%nat). { unfold tot, om, kidm, downl. cbn. rewrite lookup_singleton_ne by done. unfold cnt. destruct hp; cbn; [done|]. by destruct c. }
    split; intros _; lia.
Qed.
(** A child which is initialized has no init request in hand, and none under way. *)
Lemma fam_once ops s ev ch : guarded fstep orderly (finit hp) ops -> run fstep (finit hp) ops = Ok (s, ev) -> cm_children (f_cm s) !! c = Some ch -> ch_state ch = AInitialized \/ ch_state ch = AOperational ->
  ch_initreq ch = false /\ MInitReq c ∉ f_q s /\ MInitReq c ∉ downl s c /\ MCreate c ∉ f_q s.
Proof.
  intros Hg H Hch Hs. destruct (fam_ones ops s ev Hg H) as (_ & _ & H1 & _). assert (Hk : known s c) by (unfold known; by rewrite Hch). specialize (H1 Hk). unfold tot, kidm in H1. rewrite Hch in H1.
  assert (Hr : ch_initreq ch = false /\ om s = 0%nat) by (unfold kid in H1; destruct Hs as [Hs|Hs]; rewrite Hs in H1; destruct (ch_initreq ch); split; try done; lia). destruct Hr as [-> Ho]. split; [done|]. unfold om in Ho.
  assert (Hz : forall l, cnt l = 0%nat -> MInitReq c ∉ l /\ MCreate c ∉ l).
  { intros l Hl. split; intros Hi; apply elem_of_list_split in Hi as (l1 & l2 & ->); rewrite cnt_app in Hl; unfold cnt in Hl; cbn in Hl; rewrite N.eqb_refl in Hl; lia. }
  destruct (Hz (f_q s)) as [Z1 Z2]; [lia|]. destruct (Hz (downl s c)) as [Z3 _]; [lia|done].
Qed.
End once.
