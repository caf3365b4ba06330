(** C64: a measure of the messages which can still be sent. *)
From stdpp Require Import base list gmap.
From Verif Require Import Base ChildMgrModel ChildMgrSpec ChildMgrProofs FamilyModel FlowSpec.
Local Open Scope nat_scope.
Notation cstate := ChildMgrModel.cstate.
Notation set_init := FamilyModel.set_init.

(** ** Sums over maps *)
Section msum.
Context {K : Type} `{Countable K} {A : Type}.
Definition msum (f : K -> A -> nat) (m : gmap K A) : nat := sum_list_with (fun x => f x.1 x.2) (map_to_list m).
Lemma sum_perm {B} (f : B -> nat) l l' : l ≡ₚ l' -> sum_list_with f l = sum_list_with f l'.
Proof. induction 1; cbn; lia. Qed.
Lemma msum_empty f : msum f ∅ = 0.
Proof. unfold msum. by rewrite map_to_list_empty. Qed.
Lemma msum_new f m k x : m !! k = None -> msum f (<[k := x]> m) = f k x + msum f m.
Proof. intros Hk. unfold msum. by rewrite (sum_perm _ _ _ (map_to_list_insert m k x Hk)). Qed.
Lemma msum_delete f m k x : m !! k = Some x -> msum f m = f k x + msum f (delete k m).
Proof. intros Hk. rewrite <- (insert_delete m k x Hk) at 1. apply msum_new, lookup_delete. Qed.
Lemma msum_upd f m k x y : m !! k = Some x -> msum f (<[k := y]> m) + f k x = msum f m + f k y.
Proof. intros Hk. rewrite <- insert_delete_insert, (msum_new f (delete k m)) by apply lookup_delete. rewrite (msum_delete f m k x Hk). lia. Qed.
Lemma msum_insert f m k y : msum f (<[k := y]> m) + (match m !! k with Some x => f k x | None => 0 end) = msum f m + f k y.
Proof. destruct (m !! k) eqn:E; [by apply msum_upd|]. rewrite msum_new by done. lia. Qed.
Lemma msum_insert_le f m k y : msum f (<[k := y]> m) <= msum f m + f k y.
Proof. pose proof (msum_insert f m k y). lia. Qed.
Lemma msum_delete_le f m k : msum f (delete k m) <= msum f m.
Proof. destruct (m !! k) eqn:E; [rewrite (msum_delete f m k _ E); lia|by rewrite delete_notin]. Qed.
Lemma msum_get f m k x : m !! k = Some x -> f k x <= msum f m.
Proof. intros E. rewrite (msum_delete f m k _ E). lia. Qed.
Lemma msum_le f g m : (forall k x, m !! k = Some x -> f k x <= g k x) -> msum f m <= msum g m.
Proof.
  intros Hle. unfold msum. assert (Hl : forall x, x ∈ map_to_list m -> f x.1 x.2 <= g x.1 x.2) by (intros [k x] Hx; by apply Hle, elem_of_map_to_list).
  clear Hle. induction (map_to_list m) as [|x l IH]; cbn; [lia|]. pose proof (Hl x ltac:(left)). specialize (IH ltac:(intros y Hy; apply Hl; by right)). lia.
Qed.
Lemma msum_imap f (g : K -> A -> option A) m : (forall k x y, m !! k = Some x -> g k x = Some y -> f k y <= f k x) -> msum f (map_imap g m) <= msum f m.
Proof.
  induction m as [|k x m Hk IH] using map_ind; intros Hg; [by rewrite map_imap_empty|].
  rewrite (msum_new f m) by done. assert (IH' : msum f (map_imap g m) <= msum f m).
  { apply IH. intros k' x' y Hx. apply Hg. rewrite lookup_insert_ne; [done|]. by intros ->; rewrite Hk in Hx. }
  destruct (g k x) as [y|] eqn:E.
  - rewrite (map_imap_insert_Some g k x m y E), (msum_new f (map_imap g m)); [|by rewrite map_lookup_imap, Hk]. pose proof (Hg k x y (lookup_insert m k x) E). lia.
  - rewrite (map_imap_insert_None g k x m E). pose proof (msum_delete_le f (map_imap g m) k). lia.
Qed.
Lemma msum_fmap {B} (f : K -> B -> nat) (g : A -> B) m : sum_list_with (fun x => f x.1 x.2) (map_to_list (g <$> m)) = msum (fun k x => f k (g x)) m.
Proof. unfold msum. rewrite (sum_perm _ _ _ (map_to_list_fmap g m)). induction (map_to_list m) as [|[k x] l IH]; cbn; [done|]. by rewrite IH. Qed.
End msum.

(** ** Weights *)
Definition wq (m : fmsg) : nat :=
  match m with
  | MCreate _ => 13 | MSpawn _ => 3 | MInitReq _ => 9 | MInitResp _ _ => 3 | MInitTimeout _ => 3 | MTrigger _ => 1
  | MShutReq _ => 6 | MShutResp _ => 7 | MShutTimeout _ => 7 | MUnsub _ => 6 | MBye _ => 2
  end.
Definition wup (m : fmsg) : nat := S (wq m).
(** Messages which wait at a foreign child. *)
Definition wdown (m : fmsg) : nat := match m with MInitReq _ => 8 | MShutReq _ => 5 | MBye _ => 1 | m => wq m end.
Definition winfo (i : cinfo) : nat := match ci_actor i, ci_shut i with Some _, SNone => 13 | _, _ => 0 end.
Definition wchild (bye : gset N) (c : N) (ch : child) : nat :=
  (if bool_decide (c ∈ bye) && negb (bool_decide (ch_state ch = AShuttingDown)) then 0 else 8) + (if ch_initreq ch then 4 else 0).
Definition wcm (bye : gset N) (s : cstate) : nat :=
  msum (fun _ => winfo) (cm_map s) + msum (wchild bye) (cm_children s) + (if cm_initreq s then 3 else 0).
Definition wphase (p : phase) : nat := match p with PLeft => 0 | _ => 7 end.
Definition wmsgs (s : fstate) : nat :=
  sum_list_with wq (f_q s) + msum (fun _ => sum_list_with wup) (f_up s) + msum (fun _ => sum_list_with wdown) (f_down s) +
  3 * size (f_init s) + 7 * size (f_shut s) + wphase (f_phase s).
Definition wfam (s : fstate) : nat := wmsgs s + wcm (f_bye s) (f_cm s).

(** The price of an event of the child manager, and what an operation may spend. *)
Definition price (left : bool) (e : cevent) : nat :=
  match e with
  | ESpawnMsg _ => 3 | ECreated _ => 15 | EInitReq _ => 12 | EShutReq _ => 13 | ESelfShutdown => 2 | EEscalate => 1 | EInitError => 3
  | EChildShutdown _ => 2 | EVoteShutdown _ => if left then 7 else 0 | _ => 0
  end.
Definition prices (left : bool) (e : list cevent) : nat := sum_list_with (price left) e.
Definition allow (o : cop) : nat :=
  match o with
  | OSpawn _ | OFire _ | OInitRequest => 3
  | OOnSpawn _ _ | OOnInit _ _ => 2
  | OOnCreate _ => 12
  | OConfirm _ subs _ => if subs then 0 else 5
  | OUnsubLast _ _ | ODeactivate _ _ => 5
  | _ => 0
  end.
Lemma prices_app l e e' : prices l (e ++ e') = prices l e + prices l e'.
Proof. apply sum_list_with_app. Qed.
Lemma prices_one l x : prices l [x] = price l x.
Proof. unfold prices. cbn. lia. Qed.
Lemma prices_cons l x e : prices l (x :: e) = price l x + prices l e.
Proof. done. Qed.
Lemma births_app e e' : births (e ++ e') = births e + births e'.
Proof. unfold births. by rewrite List.filter_app, app_length. Qed.

(** What is set aside for the neighbours of a supervisor in a tree: for its parent, when
    it calls do_shutdown, and for a child which gets its init request. *)
Definition aside (hp : bool) (e : cevent) : nat := match e with ESelfShutdown => if hp then 2 else 0 | _ => 0 end.
Definition asides (hp : bool) (e : list cevent) : nat := sum_list_with (aside hp) e.
Definition owed (s : fstate) (o : fop) : nat :=
  match o with
  | FDeliver _ _ _ _ _ _ _ => match f_q s with MInitReq c :: _ => if (c =? 0)%N || bool_decide (c ∈ f_foreign s) then 0 else 3 | _ => 0 end
  | FChild c _ _ => match downl s c with MInitReq _ :: _ => 3 | _ => 0 end
  | _ => 0
  end.

(** ** The child manager *)
Section cm.
Context (hp : bool) (policy : spolicy) (sync : bool) (bye : gset N) (left : bool).
Notation W := (wcm bye).
Notation P := (prices left).
Lemma cancel_map s c : cm_map (cancel_init s c) = cm_map s /\ cm_children (cancel_init s c) = cm_children s /\ cm_initreq (cancel_init s c) = cm_initreq s.
Proof. unfold cancel_init. repeat case_match; done. Qed.
Lemma wcm_cancel s c : W (cancel_init s c) = W s.
Proof. unfold wcm. destruct (cancel_map s c) as (-> & -> & ->). done. Qed.
Lemma cancel_all l s : cm_map (foldl cancel_init s l) = cm_map s /\ W (foldl cancel_init s l) = W s.
Proof.
  revert s. induction l as [|c l IH]; intros s; cbn; [done|]. destruct (IH (cancel_init s c)) as [-> ->]. split; [apply cancel_map|apply wcm_cancel].
Qed.
Lemma wcm_put s a i : W (put_info s a i) <= W s + winfo i.
Proof. unfold wcm, put_info. cbn. pose proof (msum_insert_le (fun _ => winfo) (cm_map s) a i). lia. Qed.
Lemma wcm_upd s a i i' : cm_map s !! a = Some i -> W (put_info s a i') + winfo i = W s + winfo i'.
Proof. intros E. unfold wcm, put_info. cbn. pose proof (msum_upd (fun _ => winfo) (cm_map s) a i i' E). cbn in *. lia. Qed.
Lemma wcm_same s s' : cm_map s' = cm_map s -> cm_children s' = cm_children s -> cm_initreq s' = cm_initreq s -> W s' = W s.
Proof. unfold wcm. by intros -> -> ->. Qed.
Lemma wcm_ireq s b : W (set_initreq s b) + (if cm_initreq s then 3 else 0) = W s + (if b then 3 else 0).
Proof. unfold wcm. cbn. lia. Qed.
Lemma prices_self s : P (self_shutdown s) <= 2.
Proof. unfold self_shutdown. case_match; cbn; lia. Qed.
Lemma prices_cont s : P (init_continue s) = 0.
Proof. unfold init_continue. by case_match. Qed.
Lemma births_self s : births (self_shutdown s) = 0.
Proof. unfold self_shutdown. by case_match. Qed.
Lemma births_cont s : births (init_continue s) = 0.
Proof. unfold init_continue. by case_match. Qed.
Lemma winfo_none i : ci_actor i = None -> winfo i = 0.
Proof. unfold winfo. by intros ->. Qed.
Lemma remove_cost s a ask s' e : remove_child policy s a ask = Ok (s', e) -> P e + W s' <= W s + 5.
Proof.
  unfold remove_child. destruct (cm_map s !! a) as [i|] eqn:Ei; [|done].
  set (st1 := if bool_decide (cm_state s = AInitializing) && negb (ci_started i) then _ else _).
  assert (H1 : P st1.2 + W st1.1 <= W s + 2).
  { unfold st1. repeat case_match; cbn [fst snd]; try (pose proof (prices_self s); cbn; lia). pose proof (wcm_ireq s false) as Hw. rewrite H1 in Hw. cbn. lia. }
  clearbody st1. destruct st1 as [s1 e1]. cbn [fst snd] in H1. destruct (ci_actor i) as [c|]; [|done].
  set (abn := match cm_children (cancel_init s1 c) !! c with Some ch => _ | None => _ end). clearbody abn.
  set (st3 := if (rank (cm_state (cancel_init s1 c)) <=? 4)%N && _ then _ else _).
  assert (H3 : P st3.1.1.2 + W st3.1.1.1 <= W s1 + 3).
  { unfold st3. rewrite <- (wcm_cancel s1 c). case_match; [|cbn; lia]. destruct (next_spawn i abn ask (cm_now (cancel_init s1 c))) as [i' []]; cbn [fst snd].
    - cbn; lia.
    - rewrite prices_one. cbn [price]. rewrite (wcm_same (cancel_init s1 c)) by done. lia.
    - cbn. lia.
    - unfold start_timer. cbn [fst snd]. rewrite prices_one. cbn [price]. rewrite (wcm_same (cancel_init s1 c)) by done. lia. }
  clearbody st3. destruct st3 as [[[s3 e3] i3] erase]. cbn [fst snd] in H3. intros [= <- <-].
  rewrite prices_app, prices_cons. cbn [price Nat.add].
  rewrite !prices_app, prices_cont.
  assert (W (if erase then set_map s3 (delete a (cm_map s3)) else put_info s3 a (i_actor i3 None)) <= W s3).
  { destruct erase.
    - unfold wcm. cbn. pose proof (msum_delete_le (fun _ => winfo) (cm_map s3) a). lia.
    - pose proof (wcm_put s3 a (i_actor i3 None)). rewrite winfo_none in *; [lia|done]. }
  assert (forall b : bool, P (if b then [EShutdownContinue] else []) = 0) as Hz by (by intros []). rewrite Hz. lia.
Qed.
Lemma winfo_ask i : winfo (ask_child i) = 0.
Proof. unfold winfo, ask_child. destruct (ci_actor i) eqn:E, (ci_shut i) eqn:E'; cbn; rewrite ?E, ?E'; try done; destruct (ci_timer i =? 0)%N; cbn; by rewrite ?E. Qed.
Lemma ask_all_cost s s' e : request_shutdown_all s = (s', e) -> P e + W s' <= W s.
Proof.
  destruct (ask_all_eq s) as [x ->]. intros [= <- <-]. unfold wcm. cbn.
  assert (H0 : msum (fun _ => winfo) (ask_child <$> cm_map s) = 0).
  { unfold msum. rewrite (msum_fmap (fun _ => winfo) ask_child (cm_map s)). apply Nat.le_0_r. unfold msum. induction (map_to_list (cm_map s)) as [|[k y] l IH]; cbn; [lia|]. rewrite winfo_ask. lia. }
  rewrite H0. assert (P (concat (ask_events s <$> (map_to_list (cm_map s)).*2)) <= msum (fun _ => winfo) (cm_map s)); [|lia].
  unfold msum. induction (map_to_list (cm_map s)) as [|[k i] l IH]; [done|]. cbn [fmap list_fmap concat sum_list_with fst snd]. rewrite prices_app.
  assert (P (ask_events s i) <= winfo i); [|lia]. unfold ask_events, asked, dropped_timer, winfo. destruct (ci_actor i), (ci_shut i), (ci_timer i =? 0)%N; cbn; try lia; case_bool_decide; cbn; lia.
Qed.
Lemma winfo_shut i x : x <> SNone -> winfo (i_shut i x) = 0.
Proof. unfold winfo. cbn. destruct x, (ci_actor i); done. Qed.
Lemma request_cost s a i s' e : cm_map s !! a = Some i -> request_shutdown hp s a i = Ok (s', e) -> P e + W s' <= W s.
Proof.
  intros Ei. unfold request_shutdown. destruct (ci_shut i) eqn:Es; [|intros [= <- <-]; cbn; lia..].
  destruct (ci_actor i) as [c|] eqn:Ea; [|done].
  assert (Hw : winfo i = 13) by (unfold winfo; by rewrite Ea, Es).
  assert (Ei' : cm_map (cancel_init s c) !! a = Some i) by (by destruct (cancel_map s c) as [-> _]).
  assert (HW : forall x, x <> SNone -> W (put_info (cancel_init s c) a (i_shut i x)) + 13 = W s).
  { intros x Hx. pose proof (wcm_upd _ _ _ (i_shut i x) Ei') as Hu. rewrite Hw, wcm_cancel, (winfo_shut i x Hx) in Hu. lia. }
  destruct (c =? 0)%N.
  - destruct hp.
    + intros [= <- <-]. pose proof (prices_self (cancel_init s c)). pose proof (HW SSent ltac:(done)). lia.
    + case_bool_decide.
      * intros [= <- <-]. pose proof (HW SSent ltac:(done)). cbn [prices sum_list_with]. unfold prices; cbn. lia.
      * set (s2 := set_state _ _). destruct (request_shutdown_all s2) as [s3 e3] eqn:E3. intros [= <- <-].
        apply ask_all_cost in E3. rewrite prices_cons, prices_app, prices_one. cbn [price Nat.add].
        pose proof (wcm_put s3 a (i_shut i SSent)) as Hp. rewrite winfo_shut in Hp by done.
        assert (W s2 + 13 = W s). { rewrite <- (HW SConfirmed) by done. unfold s2. by rewrite (wcm_same (put_info (cancel_init s c) a (i_shut i SConfirmed))). }
        lia.
  - intros [= <- <-]. rewrite prices_one. cbn [price]. rewrite (wcm_same (put_info (cancel_init s c) a (i_shut i SSent))).
    + pose proof (HW SSent ltac:(done)). lia.
    + done. + done. + done.
Qed.
Lemma prices_child s c : P (child_shutdown s c) <= 2.
Proof. unfold child_shutdown. repeat case_match; cbn; lia. Qed.
Lemma prices_oc s a : P (on_child_shutdown s a) = 0.
Proof. unfold on_child_shutdown. by case_match. Qed.
Lemma wcm_put_le s a i i' : cm_map s !! a = Some i -> winfo i' <= winfo i -> W (put_info s a i') <= W s.
Proof. intros E Hl. pose proof (wcm_upd s a i i' E). lia. Qed.
Lemma create_cost s k s' c : create_child s k = (s', c) -> W s' <= W s + 21.
Proof.
  assert (Hwc : forall m : gmap N child, msum (wchild bye) (<[cm_next s := Child AInitializing None false]> m) <= msum (wchild bye) m + 8).
  { intros m. pose proof (msum_insert_le (wchild bye) m (cm_next s) (Child AInitializing None false)). cut (wchild bye (cm_next s) (Child AInitializing None false) <= 8); [lia|]. unfold wchild. cbn. case_match; lia. }
  assert (Hwi : forall i, winfo i <= 13) by (intros i; unfold winfo; repeat case_match; lia).
  unfold create_child. destruct k as [[a i]|]; intros [= <- <-]; unfold wcm; cbn.
  - pose proof (Hwc (cm_children s)). pose proof (msum_insert_le (fun _ => winfo) (delete a (cm_map s)) (cm_next s) (i_actor i (Some (cm_next s)))). pose proof (msum_delete_le (fun _ => winfo) (cm_map s) a). pose proof (Hwi (i_actor i (Some (cm_next s)))). lia.
  - pose proof (Hwc (cm_children s)).
    match goal with |- context [<[cm_next s := ?x]> (cm_map s)] => pose proof (msum_insert_le (fun _ => winfo) (cm_map s) (cm_next s) x); pose proof (Hwi x) end. lia.
Qed.
Lemma cstep_cost s o s' e : cinv s -> match o with OChild _ _ => False | _ => True end -> (left = true -> o <> OVoteShutdown) ->
  cstep hp policy sync s o = Ok (s', e) -> P e + W s' <= W s + allow o + 36 * births e.
Proof.
  intros Hv Ho Hl H. destruct o; cbn [cstep allow] in *.
  - destruct (create_child s None) as [s1 c] eqn:E. injection H as <- <-. apply create_cost in E. rewrite prices_one. cbn. lia.
  - injection H as <- <-. rewrite !prices_cons. cbn [price prices sum_list_with]. rewrite (wcm_same (put_info s (cm_next s) (CInfo (Some (cm_sids s)) cfg None SNone 0 true 0 0 false false))) by done.
    pose proof (wcm_put s (cm_next s) (CInfo (Some (cm_sids s)) cfg None SNone 0 true 0 0 false false)) as Hp. rewrite winfo_none in Hp by done. unfold prices. cbn. lia.
  - destruct (take_first a (cm_spawnq s)) as [q|] eqn:Eq; [|injection H as <- <-; cbn; lia].
    destruct (take_first_in _ _ _ Eq) as [Hin _]. destruct (v_q _ Hv _ Hin) as (i & Ei & En & _). unfold on_spawn in H.
    change (cm_map (set_spawnq s q)) with (cm_map s) in H. rewrite Ei in H.
    assert (Hs : W (set_spawnq s q) = W s) by (by apply wcm_same).
    destruct (negb (ci_active i)); [injection H as <- <-; cbn; lia|].
    destruct (ok && _).
    + destruct (create_child _ _) as [s1 c] eqn:E. injection H as <- <-. apply create_cost in E. cbn. lia.
    + assert (Hi : forall s0, W s0 <= W s + 0 -> forall i', ci_actor i' = None -> W (put_info s0 a i') <= W s).
      { intros s0 Hs0 i' Hi'. pose proof (wcm_put s0 a i') as Hp. rewrite winfo_none in Hp by done. lia. }
      set (st1 := if bool_decide _ && _ then _ else _) in H.
      assert (H1 : P st1.1.2 + W st1.1.1 <= W s + 2 /\ W st1.1.1 <= W s).
      { unfold st1. pose proof (prices_self (set_spawnq s q)). destruct (bool_decide (cm_state _ = AInitializing) && _); [|cbn [fst snd]; rewrite Hs; cbn; lia].
        destruct (cm_initreq (set_spawnq s q)) eqn:Er; cbn [fst snd]; [|lia].
        pose proof (wcm_ireq (set_spawnq s q) false) as Hw. rewrite Er, Hs in Hw. rewrite prices_one. cbn [price]. lia. }
      clearbody st1. destruct st1 as [[s1 e1] try1]. cbn [fst snd] in H1. destruct H1 as [H1 H1'].
      destruct try1; cbn in H; injection H as <- <-.
      * rewrite prices_cons, prices_app, prices_one. cbn [price].
        match goal with |- context [put_info ?x a ?y] => pose proof (wcm_put x a y) as Hp; rewrite (winfo_none y) in Hp by exact En; rewrite (wcm_same s1 x) in Hp by done end. lia.
      * rewrite prices_cons. cbn [price]. match goal with |- context [put_info ?x a ?y] => pose proof (wcm_put x a y) as Hp; rewrite (winfo_none y) in Hp by exact En end. lia.
  - destruct (take_first a (cm_createq s)) as [q|]; [|injection H as <- <-; cbn; lia]. unfold on_create in H. case_match; [|done]. injection H as <- <-.
    rewrite prices_one. cbn [price]. rewrite (wcm_same s) by done. lia.
  - case_bool_decide; [|injection H as <- <-; cbn; lia]. unfold on_init in H. set (s0 := set_initout s _) in *.
    assert (Hs : W s0 = W s) by (by apply wcm_same). clearbody s0. pose proof (prices_self s0) as Hp. destruct failed.
    + destruct (bool_decide (cm_state s0 = AInitializing) && bool_decide (policy = PShutdownSelf)).
      * destruct (cm_initreq s0) eqn:Er; [|injection H as <- <-; lia]. destruct (a =? 0)%N; injection H as <- <-; [lia|].
        pose proof (wcm_ireq s0 false) as Hw. rewrite Er in Hw. rewrite prices_one. cbn [price]. lia.
      * destruct (cm_map s0 !! a) as [i|]; [|injection H as <- <-; lia]. destruct (ci_actor i) as [c|]; [|done]. injection H as <- <-.
        pose proof (prices_child s0 c). destruct (c =? 0)%N; lia.
    + cbn in H. destruct (cm_map s0 !! a) as [i|] eqn:Ei; injection H as <- <-.
      * rewrite prices_cons, prices_app. cbn [price]. set (b := if (a =? 0)%N then _ else _). clearbody b.
        assert (Hz : P (if b then [EStart a] else []) = 0) by (by destruct b). rewrite Hz.
        match goal with |- context [P (if ?x then init_continue ?y else [])] => assert (Hz' : P (if x then init_continue y else []) = 0) by (destruct x; [apply prices_cont|done]); rewrite Hz' end.
        pose proof (wcm_put_le s0 a i (i_flags i true (ci_started i || b)) Ei ltac:(unfold winfo; cbn; lia)). lia.
      * match goal with |- context [P (if ?x then init_continue ?y else [])] => assert (Hz' : P (if x then init_continue y else []) = 0) by (destruct x; [apply prices_cont|done]); rewrite Hz' end. lia.
  - unfold on_shutdown_trigger in H. destruct (cm_map s !! a) as [i|] eqn:Ei; [|done]. pose proof (request_cost _ _ _ _ _ Ei H). lia.
  - case_bool_decide; [|injection H as <- <-; cbn; lia]. unfold on_shutdown_confirm in H. set (s0 := set_shutout s _) in *.
    assert (Hs : W s0 = W s) by (by apply wcm_same). clearbody s0. destruct (cm_map s0 !! a) as [i|] eqn:Ei; [|done]. destruct (ci_actor i); [|done].
    pose proof (wcm_put_le s0 a i (i_shut i SConfirmed) Ei ltac:(rewrite winfo_shut by done; lia)).
    destruct subs.
    + injection H as <- <-. rewrite prices_oc, (wcm_same (put_info s0 a (i_shut i SConfirmed))) by done. lia.
    + destruct (remove_child policy _ a ask) as [[s2 e2]| |] eqn:E; [|done..]. cbn in H. injection H as <- <-. apply remove_cost in E. rewrite prices_app, prices_oc. lia.
  - case_bool_decide; [|injection H as <- <-; cbn; lia]. apply remove_cost in H. rewrite (wcm_same s (set_unsub s _)) in H by done. lia.
  - injection H as <- <-. cbn. lia.
  - case_bool_decide; [|injection H as <- <-; cbn; lia]. unfold handle_shutdown in H. destruct (cm_map s !! 0%N) as [i|] eqn:Ei; [|done].
    destruct (request_shutdown_all _) as [s1 e1] eqn:E. injection H as <- <-. apply ask_all_cost in E. rewrite prices_app, prices_one. cbn [price].
    pose proof (wcm_put_le s 0%N i (i_shut i SConfirmed) Ei ltac:(rewrite winfo_shut by done; lia)). destruct left; [by destruct (Hl eq_refl)|lia].
  - case_bool_decide; [|injection H as <- <-; cbn; lia]. unfold handle_start in H. destruct sync; injection H as <- <-; [|cbn; rewrite (wcm_same s) by done; lia].
    assert (Hz : forall l : list (N * cinfo), P (omap (fun '(a, _) => if (a =? 0)%N then None else Some (EStart a)) l) = 0).
    { induction l as [|[a i] l IH]; [done|]. cbn. destruct (a =? 0)%N; exact IH. }
    rewrite prices_cons, Hz. cbn [price]. unfold wcm. cbn.
    pose proof (msum_imap (fun _ => winfo) (fun a i => Some (if (a =? 0)%N then i else i_flags i (ci_initialized i) true)) (cm_map s) ltac:(intros k x y _ [= <-]; destruct (k =? 0)%N; unfold winfo; cbn; lia)). lia.
  - destruct (cm_timers s !! id) as [d|]; [|injection H as <- <-; cbn; lia]. destruct (d <=? cm_now s)%N; [|injection H as <- <-; cbn; lia].
    unfold on_spawn_timer in H. destruct (cm_spawning s !! id) as [key|]; [|done].
    set (s0 := set_timing s _ _ _) in *. assert (Hs : W s0 = W s) by (by apply wcm_same). clearbody s0. destruct (cm_map s0 !! key) as [i|] eqn:Ei; [|done].
    pose proof (wcm_put_le s0 key i (i_timer i 0) Ei ltac:(unfold winfo; cbn; lia)).
    case_match; injection H as <- <-; [rewrite prices_one; cbn [price]; rewrite (wcm_same (put_info s0 key (i_timer i 0))) by done; lia|cbn; lia].
  - injection H as <- <-. rewrite (wcm_same s) by done. cbn. lia.
  - injection H as <- <-. rewrite (wcm_same s) by done. cbn. lia.
  - injection H as <- <-. unfold prices. cbn. case_bool_decide; [|lia]. pose proof (wcm_ireq s true). destruct (cm_initreq s); lia.
  - destruct (sup_moves hp (cm_state s) s0); injection H as <- <-; [|cbn; lia].
    match goal with |- context [set_initreq ?x ?b] => pose proof (wcm_ireq x b) as Hw; change (cm_initreq x) with (cm_initreq s) in Hw; rewrite (wcm_same s x) in Hw by done end. unfold prices. cbn [sum_list_with]. case_bool_decide; cbn in *; destruct (cm_initreq s); lia.
  - done.
  - case_bool_decide; [|injection H as <- <-; cbn; lia]. unfold deactivate in H. case_match; [|injection H as <- <-; cbn; lia]. apply remove_cost in H. lia.
Qed.
End cm.
